(** Property theorems for multi-start selection, ranking, penalty and discrete mode: C27-C30. *)
From Coq Require Import List Bool String Reals ZArith Lra Lia Sorted Permutation Psatz.
From Verif Require Import Base RLists XR OptModel.
Import ListNotations.
Open Scope R_scope.

(** One pass with strict improvement keeps the first of the best elements. *)
Section FirstBest.
  Context {T : Type} (better : xr -> xr -> bool) (e0 : xr) (ok : T -> bool) (key : T -> xr).
  Hypothesis better_trans : forall a b c, better a b = true -> better b c = true -> better a c = true.
  Hypothesis better_ge : forall b y x, better b y = false -> better b x = true -> (b = e0 \/ better e0 b = true) ->
    better e0 y = false \/ better y x = true.
  Definition pass (st : option T * xr) (x : T) : option T * xr :=
    if ok x then (if better (snd st) (key x) then (Some x, key x) else st) else st.
  Definition pass_inv (l : list T) (st : option T * xr) : Prop :=
    match fst st with
    | None => snd st = e0 /\ forall x, In x l -> ok x = true -> better e0 (key x) = false
    | Some x => exists l1 l2, l = (l1 ++ x :: l2)%list /\ ok x = true /\ snd st = key x /\ better e0 (key x) = true /\
        (forall y, In y l1 -> ok y = true -> better e0 (key y) = false \/ better (key y) (key x) = true) /\
        (forall y, In y l2 -> ok y = true -> better (key x) (key y) = false)
    end.
  Lemma pass_ok l : pass_inv l (fold_left pass l (None, e0)).
  Proof using better_trans better_ge.
    induction l as [|x l IH] using rev_ind; [cbn; split; [reflexivity|contradiction]|].
    rewrite fold_left_app. cbn [fold_left]. destruct (fold_left pass l (None, e0)) as [o e].
    unfold pass. cbn [fst snd]. destruct (ok x) eqn:Ox.
    - unfold pass_inv in IH. cbn [fst snd] in IH. destruct o as [b|].
      + destruct IH as (l1 & l2 & -> & Ob & -> & B0 & H1 & H2). destruct (better (key b) (key x)) eqn:Eb.
        * unfold pass_inv. cbn [fst snd]. exists (l1 ++ b :: l2)%list, []. split; [reflexivity|]. split; [exact Ox|].
          split; [reflexivity|]. split; [eauto|]. split; [|cbn; contradiction].
          intros y Hy Oy. apply in_app_or in Hy. destruct Hy as [Hy|[<-|Hy]].
          -- destruct (H1 y Hy Oy) as [A|A]; [left; exact A|right; eauto].
          -- right. exact Eb.
          -- apply (better_ge (key b)); auto.
        * unfold pass_inv. cbn [fst snd]. exists l1, (l2 ++ [x])%list. rewrite <- app_assoc. split; [reflexivity|].
          split; [exact Ob|]. split; [reflexivity|]. split; [exact B0|]. split; [exact H1|].
          intros y Hy Oy. apply in_app_or in Hy. destruct Hy as [Hy|[<-|[]]]; auto.
      + destruct IH as [-> H]. destruct (better e0 (key x)) eqn:Eb; unfold pass_inv; cbn [fst snd].
        * exists l, []. split; [reflexivity|]. split; [exact Ox|]. split; [reflexivity|]. split; [exact Eb|].
          split; [|cbn; contradiction]. intros y Hy Oy. left. auto.
        * split; [reflexivity|]. intros y Hy Oy. apply in_app_or in Hy. destruct Hy as [Hy|[<-|[]]]; auto.
    - unfold pass_inv in *. cbn [fst snd] in *. destruct o as [b|].
      + destruct IH as (l1 & l2 & -> & Ob & E & B0 & H1 & H2). exists l1, (l2 ++ [x])%list. rewrite <- app_assoc.
        split; [reflexivity|]. split; [exact Ob|]. split; [exact E|]. split; [exact B0|]. split; [exact H1|].
        intros y Hy Oy. apply in_app_or in Hy. destruct Hy as [Hy|[<-|[]]]; [auto|congruence].
      + destruct IH as [E H]. split; [exact E|]. intros y Hy Oy. apply in_app_or in Hy. destruct Hy as [Hy|[<-|[]]]; [auto|congruence].
  Qed.
End FirstBest.

Lemma Rltb_lt a b : Rltb a b = true -> a < b.
Proof. destruct (Rltb_spec a b); [auto|discriminate]. Qed.
Lemma Rltb_ge a b : Rltb a b = false -> b <= a.
Proof. destruct (Rltb_spec a b); [discriminate|lra]. Qed.
Lemma Rleb_le a b : Rleb a b = true -> a <= b.
Proof. destruct (Rleb_spec a b); [auto|discriminate]. Qed.
Lemma xleb_fin a b : xleb (Fin a) (Fin b) = true <-> a <= b.
Proof.
  unfold xleb. cbn. destruct (Rltb_spec a b); cbn; [intuition lra|].
  destruct (Reqb_spec a b); split; intro; try lra; try discriminate; reflexivity.
Qed.
Ltac xr_cases := repeat match goal with x : xr |- _ => destruct x end; cbn in *; try congruence; auto.
Lemma xltb_trans' a b c : xltb a b = true -> xltb b c = true -> xltb a c = true.
Proof. intros H1 H2. xr_cases. apply Rltb_lt in H1, H2. destruct (Rltb_spec r1 r); [reflexivity|lra]. Qed.
Lemma xltb_ge b y x e0 : xltb b y = false -> xltb b x = true -> (b = e0 \/ xltb e0 b = true) ->
  xltb e0 y = false \/ xltb y x = true.
Proof.
  intros H1 H2 [->|H3]; [left; exact H1|]. destruct y; [|destruct b; cbn in *; try discriminate; destruct e0; cbn in *; auto..].
  - right. destruct b; cbn in *; try discriminate; destruct x; cbn in *; try discriminate; auto.
    apply Rltb_lt in H2. destruct (Rltb_spec r0 r); [discriminate|]. destruct (Rltb_spec r r1); [reflexivity|lra].
Qed.
Lemma xgtb_ge b y x e0 : xltb y b = false -> xltb x b = true -> (b = e0 \/ xltb b e0 = true) ->
  xltb y e0 = false \/ xltb x y = true.
Proof.
  intros H1 H2 [->|H3]; [left; exact H1|]. destruct y; destruct b; cbn in *; try discriminate; destruct x; cbn in *; try discriminate;
    destruct e0; cbn in *; try discriminate; auto; right;
    repeat match goal with H : Rltb _ _ = true |- _ => apply Rltb_lt in H | H : Rltb _ _ = false |- _ => apply Rltb_ge in H end;
    match goal with |- Rltb ?a ?b = true => destruct (Rltb_spec a b); [reflexivity|lra] | _ => auto end.
Qed.

(* ---------------- C27 ---------------- *)
(** A run satisfies the mass constraint: the error is below 1e-4. *)
Definition satisfies (constraint : list R -> xr) (o : run) : Prop :=
  exists e, constraint (run_x o) = Fin e /\ Rabs e < 1 / 10000.
(** The entropy of a run; -inf and nan are not entropies a run can be preferred for. *)
Definition entropy_is (o : run) (h : R) : Prop := run_fun o = Fin (- h).

Lemma feasible_spec constraint o : feasible constraint o = true <-> satisfies constraint o.
Proof.
  unfold feasible, satisfies. destruct (constraint (run_x o)) eqn:E; cbn.
  - split.
    + intro H. apply Rltb_lt in H. exists r. split; [reflexivity|]. lra.
    + intros (e & Ee & H). injection Ee as <-. destruct (Rltb_spec (Rabs r) 0.0001); [reflexivity|lra].
  - split; [discriminate|intros (e & Ee & _); discriminate].
  - split; [discriminate|intros (e & Ee & _); discriminate].
  - split; [discriminate|intros (e & Ee & _); discriminate].
Qed.

Lemma best_step_pass constraint l st : fold_left (best_step constraint) l st =
  fold_left (pass xltb (feasible constraint) (fun o => xneg (run_fun o))) l st.
Proof. reflexivity. Qed.

(** If some completed run satisfies the constraint with a finite entropy (and none has an infinite one), the run kept
    satisfies it, no run satisfying it has a larger entropy, and the ones before it have a strictly smaller one. The
    instance handed back is configured with the vector of that run, so it satisfies the constraint itself. *)
Theorem C27_best_feasible : forall I S constraint (install : list R -> S) (minimize : I -> option run) inits,
  let runs := completed minimize inits in
  (forall o, In o runs -> satisfies constraint o -> exists h, entropy_is o h) ->
  (exists o, In o runs /\ satisfies constraint o) ->
  exists l1 o l2 h, optimize_max_ent constraint install minimize inits = Ok (o, install (run_x o)) /\
    runs = (l1 ++ o :: l2)%list /\ satisfies constraint o /\ entropy_is o h /\
    (forall o' h', In o' runs -> satisfies constraint o' -> entropy_is o' h' -> h' <= h) /\
    (forall o' h', In o' l1 -> satisfies constraint o' -> entropy_is o' h' -> h' < h).
Proof.
  intros I S constraint install minimize inits runs Hfin (o0 & Hin0 & Hs0). unfold optimize_max_ent. fold runs.
  unfold select. rewrite best_step_pass.
  pose proof (pass_ok xltb NInf (feasible constraint) (fun o => xneg (run_fun o)) xltb_trans' (fun b y x => xltb_ge b y x NInf) runs) as P.
  unfold pass_inv in P. destruct (fold_left _ _ _) as [[o|] e]; cbn [fst snd] in *.
  - destruct P as (l1 & l2 & E & Fo & -> & B0 & H1 & H2).
    assert (So : satisfies constraint o) by (apply feasible_spec; exact Fo).
    assert (Io : In o runs) by (rewrite E; apply in_elt).
    destruct (Hfin o Io So) as [h Hh]. exists l1, o, l2, h. split; [reflexivity|]. split; [exact E|].
    split; [exact So|]. split; [exact Hh|].
    assert (G1 : forall o' h', In o' l1 -> satisfies constraint o' -> entropy_is o' h' -> h' < h).
    { intros o' h' Hi Hs He. apply feasible_spec in Hs. unfold entropy_is in *. destruct (H1 o' Hi Hs) as [A|A]; rewrite He in A; cbn in A.
      - discriminate.
      - rewrite Hh in A. cbn in A. apply Rltb_lt in A. lra. }
    split; [|exact G1]. intros o' h' Hi Hs He. rewrite E in Hi. apply in_app_or in Hi. destruct Hi as [Hi|[<-|Hi]].
    + left. eauto.
    + unfold entropy_is in *. rewrite Hh in He. injection He as He. lra.
    + apply feasible_spec in Hs. specialize (H2 o' Hi Hs). unfold entropy_is in *. rewrite Hh, He in H2. cbn in H2.
      apply Rltb_ge in H2. lra.
  - exfalso. destruct P as [_ H]. destruct (Hfin o0 Hin0 Hs0) as [h Hh]. unfold entropy_is in Hh.
    specialize (H o0 Hin0 (proj2 (feasible_spec _ _) Hs0)). cbn in H. rewrite Hh in H. discriminate.
Qed.
Definition demo_runs : list run := [ {| run_x := [5]; run_fun := Fin (-9) |}; {| run_x := [0]; run_fun := Fin (-1) |}; {| run_x := [0]; run_fun := Fin (-2) |} ].
Example C27_best_applies :
  let constraint := fun v => match v with [x] => Fin x | _ => NaN end in
  let runs := completed (fun o => Some o) demo_runs in
  (forall o, In o runs -> satisfies constraint o -> exists h, entropy_is o h) /\
  (exists o, In o runs /\ satisfies constraint o) /\
  optimize_max_ent constraint (fun v => v) (fun o => Some o) demo_runs = Ok ({| run_x := [0]; run_fun := Fin (-2) |}, [0]).
Proof.
  cbn -[Rabs]. split; [|split].
  - intros o [<-|[<-|[<-|[]]]] _; unfold entropy_is; cbn; [exists 9|exists 1|exists 2]; f_equal; lra.
  - exists {| run_x := [0]; run_fun := Fin (-1) |}. split; [auto|]. exists 0. split; [reflexivity|]. rewrite Rabs_R0. lra.
  - unfold optimize_max_ent, select, demo_runs. cbn [completed fold_left]. unfold best_step, feasible. cbn -[Rabs].
    rewrite !Rabs_R0. rewrite (Rabs_right 5) by lra.
    destruct (Rltb_spec 5 0.0001); [lra|]. destruct (Rltb_spec 0 0.0001); [|lra]. cbn -[Rabs].
    rewrite ?Rabs_R0. destruct (Rltb_spec 0 0.0001); [|lra]. cbn.
    destruct (Rltb_spec (- -1) (- -2)); [|lra]. reflexivity.
Qed.

(** If no completed run satisfies the constraint, the first one is used. *)
Theorem C27_none_feasible : forall I S constraint (install : list R -> S) (minimize : I -> option run) inits o rest,
  completed minimize inits = o :: rest -> (forall o', In o' (o :: rest) -> ~ satisfies constraint o') ->
  optimize_max_ent constraint install minimize inits = Ok (o, install (run_x o)).
Proof.
  intros I S constraint install minimize inits o rest E H. unfold optimize_max_ent, select. rewrite best_step_pass, E.
  pose proof (pass_ok xltb NInf (feasible constraint) (fun o => xneg (run_fun o)) xltb_trans' (fun b y x => xltb_ge b y x NInf) (o :: rest)) as P.
  unfold pass_inv in P. destruct (fold_left _ _ _) as [[b|] e]; cbn [fst snd] in *; [|reflexivity].
  destruct P as (l1 & l2 & Eb & Fb & _). exfalso. apply (H b); [rewrite Eb; apply in_elt|]. apply feasible_spec, Fb.
Qed.
Example C27_none_applies : ~ satisfies (fun _ => Fin 1) {| run_x := []; run_fun := Fin 0 |}.
Proof. intros (e & E & H). injection E as <-. rewrite Rabs_R1 in H. lra. Qed.

(** If no run completed, an IndexError is raised; in particular when the first one fails. *)
Theorem C27_nothing_completed : forall I S constraint (install : list R -> S) (minimize : I -> option run) inits,
  (optimize_max_ent constraint install minimize inits = Err IndexError <-> completed minimize inits = []) /\
  (forall e, optimize_max_ent constraint install minimize inits = Err e -> e = IndexError).
Proof.
  intros I S constraint install minimize inits. unfold optimize_max_ent, select. destruct (completed minimize inits).
  - cbn. split; [tauto|]. intros e [= <-]. reflexivity.
  - destruct (fold_left _ _ _) as [[b|] e]; cbn; (split; [split; discriminate|discriminate]).
Qed.
Example C27_nothing_applies : optimize_max_ent (fun _ => Fin 0) (fun v => v) (fun _ : nat => None) [1; 2]%nat = Err IndexError.
Proof. reflexivity. Qed.

(** The failure of one start hides the later ones: with a first start that fails and a second that would have satisfied
    the constraint, the call raises instead of using it. *)
Theorem C27_failed_start_hides_others_refuted : exists (minimize : nat -> option run) constraint,
  (exists i o, In i [0; 1; 2; 3; 4]%nat /\ minimize i = Some o /\ satisfies constraint o) /\
  optimize_max_ent constraint (fun v => v) minimize [0; 1; 2; 3; 4]%nat = Err IndexError.
Proof.
  exists (fun i => if Nat.eqb i 0 then None else Some {| run_x := []; run_fun := Fin (-1) |}), (fun _ => Fin 0). split.
  - exists 1%nat, {| run_x := []; run_fun := Fin (-1) |}. split; [cbn; auto|]. split; [reflexivity|].
    exists 0. split; [reflexivity|]. rewrite Rabs_R0. lra.
  - reflexivity.
Qed.

(** What satisfying the constraint means when no statistic is fixed: the mass between the endpoints (for a discrete
    distribution, endpoints included) is within 1e-4 of the requested one. *)
Theorem C27_mass_reached : forall (discrete : bool) (F : R -> R) lower upper mass,
  Rabs ((F upper - F (if discrete then lower - 1 else lower)) - mass) < 1 / 10000 <->
  feasible (fun _ => prob_bound discrete (fun x => match x with Fin r => Fin (F r) | _ => NaN end) (Fin lower) (Fin upper) (Fin mass) None)
    {| run_x := []; run_fun := Fin 0 |} = true.
Proof.
  intros discrete F lower upper mass. unfold feasible, prob_bound. destruct discrete; cbn.
  - match goal with |- context [Rltb ?a ?b] => destruct (Rltb_spec a b) as [H|H] end;
      (split; [intro H'|try discriminate; intros _]); try reflexivity; unfold Rminus in *; lra.
  - match goal with |- context [Rltb ?a ?b] => destruct (Rltb_spec a b) as [H|H] end;
      (split; [intro H'|try discriminate; intros _]); try reflexivity; unfold Rminus in *; lra.
Qed.
Example C27_mass_applies : Rabs ((1 - (1/10)) - 9/10) < 1/10000.
Proof. replace (1 - 1/10 - 9/10) with 0 by lra. rewrite Rabs_R0. lra. Qed.

(** With a fixed statistic the two errors are subtracted from one another, so a run that misses both the mass and the
    statistic counts as satisfying the constraint. *)
Theorem C27_fixed_stat_refuted : exists (F : R -> R) lower upper mass actual wanted,
  prob_bound false (fun x => match x with Fin r => Fin (F r) | _ => NaN end) (Fin lower) (Fin upper) (Fin mass)
    (Some (Fin actual, Fin wanted)) = Fin 0 /\
  Rabs ((F upper - F lower) - mass) = 1 / 4 /\ Rabs (actual - wanted) = 1 / 4.
Proof.
  exists (fun x => Rmax 0 (Rmin x 1)), 0, 1, (3/4), (1/2), (1/4).
  assert (E1 : Rmax 0 (Rmin 1 1) = 1) by (rewrite Rmin_left, Rmax_right; lra).
  assert (E0 : Rmax 0 (Rmin 0 1) = 0) by (rewrite Rmin_left, Rmax_left; lra).
  assert (E4 : Rabs (1 / 2 - 1 / 4) = 1 / 4) by (rewrite Rabs_right; lra).
  split; [|split; [|exact E4]].
  - unfold prob_bound. cbn. rewrite E1, E0. change (1 / 2 + - (1 / 4)) with (1 / 2 - 1 / 4). rewrite E4. f_equal. lra.
  - rewrite E1, E0. rewrite Rabs_right; lra.
Qed.

(** The five starting points: the moment fit, then four rescaled copies clipped to the parameter bounds. *)
Definition within (x : xr) (b : xr * xr) : Prop := xleb (fst b) x = true /\ xleb x (snd b) = true.
Theorem C27_starting_points : forall (current : list R) bounds,
  Forall (fun b => xleb (fst b) (snd b) = true) bounds ->
  List.length bounds = List.length current ->
  exists scaled, starts (map Fin current) bounds = map Fin current :: scaled /\ List.length scaled = 4%nat /\
    Forall (fun s => Forall2 within s bounds) scaled.
Proof.
  intros current bounds HB HL. unfold starts. eexists. split; [reflexivity|]. split; [reflexivity|].
  apply Forall_forall. intros s Hs. apply in_map_iff in Hs. destruct Hs as (c & <- & _).
  revert current HL. induction HB as [|[lo hi] bs Hb HB IH]; intros [|x current] HL; try discriminate; cbn [map combine]; [constructor|].
  constructor; [|apply IH; cbn in HL; lia]. unfold within, clip. cbn [fst snd xmul] in *.
  assert (GG : xleb lo hi = true) by exact Hb. clear - GG.
  destruct lo, hi; try discriminate GG; cbn [xisnan orb xltb];
    repeat (match goal with |- context [Rltb ?a ?b] => destruct (Rltb_spec a b) end; cbn [xisnan orb xltb]);
    split; try reflexivity; try (apply xleb_fin; try apply xleb_fin in GG; lra);
    try (apply xleb_fin in GG; apply xleb_fin; lra).
Qed.
Example C27_starts_applies : Forall (fun b => xleb (fst b) (snd b) = true) [(NInf, PInf); (Fin 0, PInf)].
Proof. repeat constructor. Qed.

(* ---------------- C28 ---------------- *)
(** [d] is the first of the candidates with the smallest loss; nan and infinite losses are never chosen. *)
Definition first_minimiser {D} (loss : D -> xr) (ds : list D) (d : D) : Prop :=
  exists l1 l2, ds = (l1 ++ d :: l2)%list /\ xltb (loss d) PInf = true /\
    (forall d', In d' l1 -> loss d' = NaN \/ loss d' = PInf \/ xltb (loss d) (loss d') = true) /\
    (forall d', In d' l2 -> loss d' = NaN \/ xleb (loss d) (loss d') = true).
(** The loss a candidate is ranked by: infinite if its support does not contain the data. *)
Definition ranked_loss {D} (check : D -> bool) (fitted : D -> xr) (d : D) : xr := if check d then fitted d else PInf.

Lemma not_lt_pinf x : xltb x PInf = false -> x = NaN \/ x = PInf.
Proof. destruct x; cbn; auto; discriminate. Qed.
Lemma not_gt_le a b : xltb b a = false -> xltb a PInf = true -> b = NaN \/ xleb a b = true.
Proof.
  destruct a, b; cbn; intros H1 H2; try discriminate; auto.
  right. apply xleb_fin. apply Rltb_ge in H1. lra.
Qed.

Lemma loss_fold {D} (loss : D -> xr) (ok : D -> bool) (ds : list D) : forall st : loss_state D,
  let st' := fold_left (fun st d => if ok d then loss_update st (loss d) d else st) ds st in
  (best st', old_loss st') = fold_left (pass (fun a b => xltb b a) ok loss) ds (best st, old_loss st) /\
  recorded st' = (recorded st ++ map (fun d => (loss d, d)) (filter ok ds))%list.
Proof.
  induction ds as [|d ds IH]; intro st; cbn [fold_left map filter]; [rewrite app_nil_r; auto|].
  destruct (ok d) eqn:Eo.
  - destruct (IH (loss_update st (loss d) d)) as [A B]. cbn zeta in *. split.
    + rewrite A. f_equal. unfold pass, loss_update. rewrite Eo. cbn [snd]. destruct (xltb (loss d) (old_loss st)); reflexivity.
    + rewrite B. unfold loss_update. cbn [map]. destruct (xltb (loss d) (old_loss st)); cbn [recorded]; rewrite <- app_assoc; reflexivity.
  - destruct (IH st) as [A B]. cbn zeta in *. split; [|exact B]. rewrite A. f_equal. unfold pass. rewrite Eo. reflexivity.
Qed.

Lemma xgt_trans a b c : xltb b a = true -> xltb c b = true -> xltb c a = true.
Proof. intros. eapply xltb_trans'; eauto. Qed.
Lemma pass_min {D} (ok : D -> bool) (loss : D -> xr) (ds : list D) :
  match fst (fold_left (pass (fun a b => xltb b a) ok loss) ds (None, PInf)) with
  | Some d => ok d = true /\ first_minimiser (ranked_loss ok loss) ds d
  | None => forall d, In d ds -> ok d = true -> loss d = NaN \/ loss d = PInf
  end.
Proof.
  pose proof (pass_ok (fun a b => xltb b a) PInf ok loss xgt_trans (fun b y x => xgtb_ge b y x PInf) ds) as P.
  unfold pass_inv in P. destruct (fold_left _ _ _) as [[d|] e]; cbn [fst snd] in *.
  - destruct P as (l1 & l2 & E & Od & _ & B0 & H1 & H2). split; [exact Od|]. exists l1, l2. unfold ranked_loss. rewrite Od.
    split; [exact E|]. split; [exact B0|]. split.
    + intros d' Hd. destruct (ok d') eqn:O'; [|auto]. destruct (H1 d' Hd O') as [A|A]; [|auto].
      destruct (not_lt_pinf _ A); auto.
    + intros d' Hd. destruct (ok d') eqn:O'; [|right; unfold xleb; rewrite B0; reflexivity].
      apply not_gt_le; auto.
  - destruct P as [_ H]. intros d Hd O'. apply not_lt_pinf. auto.
Qed.

(** Fitting to a sample: every candidate is recorded once, in order, with its loss; the one selected is the first with
    the smallest loss; nothing is selected only if no candidate has a loss below infinity. *)
Theorem C28_fit_to_sample : forall D (check : D -> bool) (fitted : D -> xr) ds,
  let st := fit_to_sample check fitted ds in
  recorded st = map (fun d => (ranked_loss check fitted d, d)) ds /\
  match best st with
  | Some d => check d = true /\ first_minimiser (ranked_loss check fitted) ds d
  | None => forall d, In d ds -> ranked_loss check fitted d = NaN \/ ranked_loss check fitted d = PInf
  end.
Proof.
  intros D check fitted ds st. unfold st, fit_to_sample.
  destruct (loss_fold (ranked_loss check fitted) (fun _ => true) ds new_loss) as [A B]. cbn zeta in *.
  fold (ranked_loss check fitted). change (fun st d => loss_update st (ranked_loss check fitted d) d) with
    (fun (st : loss_state D) d => if true then loss_update st (ranked_loss check fitted d) d else st) in *.
  match type of B with recorded ?X = _ => change X with
    (fold_left (fun (st : loss_state D) d => loss_update st (if check d then fitted d else PInf) d) ds new_loss) in A, B;
    set (fin := fold_left (fun (st : loss_state D) d => loss_update st (if check d then fitted d else PInf) d) ds new_loss) in * end.
  split.
  - rewrite B. cbn [recorded new_loss app]. f_equal. clear. induction ds; cbn; congruence.
  - pose proof (pass_min (fun _ => true) (ranked_loss check fitted) ds) as P. cbn [best old_loss new_loss] in A.
    rewrite <- A in P. cbn [fst] in P. destruct (best fin) as [d|].
    + destruct P as [_ P]. split; [|exact P]. destruct P as (l1 & l2 & _ & H & _). unfold ranked_loss in H.
      destruct (check d); [reflexivity|discriminate].
    + intros d Hd. apply (P d Hd eq_refl).
Qed.
Example C28_sample_applies : best (fit_to_sample (fun d => negb (Nat.eqb d 0)) (fun d => if Nat.eqb d 1 then NaN else Fin (INR d)) [0; 1; 2]%nat)
  = Some 2%nat.
Proof. reflexivity. Qed.

(** Fitting to an empirical pdf (roulette) and to quartiles: the same selection among the candidates whose support
    contains the data. *)
Theorem C28_fit_to_epdf : forall D (check : D -> bool) (fitted : D -> xr) ds,
  match fit_to_epdf check fitted ds with
  | Some d => check d = true /\ first_minimiser (ranked_loss check fitted) ds d
  | None => forall d, In d ds -> check d = true -> fitted d = NaN \/ fitted d = PInf
  end.
Proof.
  intros D check fitted ds. unfold fit_to_epdf.
  destruct (loss_fold fitted check ds new_loss) as [A _]. cbn zeta in A.
  pose proof (pass_min check fitted ds) as P. cbn [best old_loss new_loss] in A. rewrite <- A in P. exact P.
Qed.
Theorem C28_fit_to_quartile : forall D (check : D -> bool) (error : D -> xr) ds,
  match fit_to_quartile check error ds with
  | Some d => check d = true /\ first_minimiser (ranked_loss check error) ds d
  | None => forall d, In d ds -> check d = true -> error d = NaN \/ error d = PInf
  end.
Proof.
  intros D check error ds. pose proof (pass_min check error ds) as P. unfold fit_to_quartile.
  assert (G : forall l st, fold_left (fun st d => if check d then let e := error d in if xltb e (fst st) then (e, Some d) else st else st) l st
     = let r := fold_left (pass (fun a b => xltb b a) check error) l (snd st, fst st) in (snd r, fst r)).
  { induction l as [|d l IH]; intros [e o]; cbn [fold_left]; [reflexivity|]. rewrite IH. unfold pass. cbn [fst snd].
    destruct (check d); [|reflexivity]. destruct (xltb (error d) e); reflexivity. }
  rewrite G. cbn [fst snd]. exact P.
Qed.
Example C28_epdf_applies : fit_to_epdf (fun _ => true) (fun d => Fin (if Nat.eqb d 3 then 1 else 2)) [1; 3; 3; 2]%nat = Some 3%nat
  /\ fit_to_quartile (fun d => Nat.eqb d 1) (fun d => Fin 0) [3; 2]%nat = None.
Proof.
  split; [|reflexivity]. unfold fit_to_epdf. cbn. unfold loss_update. cbn.
  destruct (Rltb_spec 1 2); [|lra]. cbn. destruct (Rltb_spec 1 1); [lra|]. cbn. destruct (Rltb_spec 2 1); [lra|]. reflexivity.
Qed.

(** np.argsort: a permutation of the positions along which the values do not decrease, nan after everything else. *)
Definition np_le (a b : xr) : Prop := b = NaN \/ xleb a b = true.
Definition is_argsort (l : list xr) (p : list nat) : Prop :=
  Permutation p (seq 0 (List.length l)) /\ StronglySorted (fun i j => np_le (nth i l NaN) (nth j l NaN)) p.

(** mle reports every candidate exactly once, losses not decreasing along the report (nan last), and the one reported
    first has the same loss as the one selected. *)
Theorem C28_mle_order : forall D argsort (check : D -> bool) (fitted : D -> xr) ds,
  (forall l, is_argsort l (argsort l)) ->
  let order := mle_order argsort (fit_to_sample check fitted ds) in
  exists sorted : list D,
    map (nth_error ds) order = map Some sorted /\ Permutation sorted ds /\
    StronglySorted (fun a b => np_le (ranked_loss check fitted a) (ranked_loss check fitted b)) sorted /\
    (forall d, best (fit_to_sample check fitted ds) = Some d ->
       exists d0 rest, sorted = d0 :: rest /\ ranked_loss check fitted d0 = ranked_loss check fitted d).
Proof.
  intros D argsort check fitted ds HA order. destruct (C28_fit_to_sample D check fitted ds) as [HR HB].
  unfold order, mle_order. clear order. rewrite HR, map_map. cbn [fst]. specialize (HA (map (ranked_loss check fitted) ds)).
  destruct HA as [HP HS]. rewrite map_length in HP.
  change (map (fun x => ranked_loss check fitted x) ds) with (map (ranked_loss check fitted) ds).
  set (p := argsort (map (ranked_loss check fitted) ds)) in *.
  assert (X : exists sorted, map (nth_error ds) p = map Some sorted /\ Permutation sorted ds).
  { assert (Q : Permutation (map (nth_error ds) p) (map Some ds)).
    { rewrite HP. assert (Z : forall l : list D, map (nth_error l) (seq 0 (List.length l)) = map Some l).
      { induction l; [reflexivity|]. cbn [List.length seq map nth_error]. f_equal. rewrite <- seq_shift, map_map. exact IHl. }
      rewrite Z. reflexivity. }
    apply Permutation_map_inv in Q. destruct Q as (srt & E & Q). exists srt. split; [exact E|]. symmetry. exact Q. }
  destruct X as (srt & ES & PS). exists srt. split; [exact ES|]. split; [exact PS|].
  assert (SS : StronglySorted (fun a b => np_le (ranked_loss check fitted a) (ranked_loss check fitted b)) srt).
  { clear - ES HS. revert srt ES. induction HS as [|i p HS IH HF]; intros srt ES.
    - destruct srt; [constructor|discriminate].
    - destruct srt as [|a srt]; [discriminate|]. cbn [map] in ES. injection ES as E0 ES. constructor; [apply IH; exact ES|].
      apply Forall_forall. intros b Hb. assert (Hb' : In (Some b) (map Some srt)) by (apply in_map; exact Hb).
      rewrite <- ES in Hb'. apply in_map_iff in Hb'. destruct Hb' as (j & Ej & Hj).
      rewrite Forall_forall in HF. specialize (HF j Hj).
      rewrite (nth_error_nth (map (ranked_loss check fitted) ds) i NaN (map_nth_error _ _ _ E0)) in HF.
      rewrite (nth_error_nth (map (ranked_loss check fitted) ds) j NaN (map_nth_error _ _ _ Ej)) in HF. exact HF. }
  split; [exact SS|]. intros d Hd. rewrite Hd in HB. destruct HB as [_ HM].
  destruct HM as (l1 & l2 & Eds & Hfin & H1 & H2).
  assert (Hall : forall d', In d' ds -> ranked_loss check fitted d' = NaN \/ xleb (ranked_loss check fitted d) (ranked_loss check fitted d') = true).
  { intros d' Hd'. rewrite Eds in Hd'. apply in_app_or in Hd'. destruct Hd' as [Hd'|[<-|Hd']]; [|right|auto].
    - destruct (H1 d' Hd') as [A|[A|A]]; [auto| |]; right; unfold xleb; [rewrite A, Hfin|rewrite A]; reflexivity.
    - unfold xleb. destruct (ranked_loss check fitted d); cbn in *; try discriminate; try reflexivity.
      rewrite Reqb_refl. apply orb_true_r. }
  destruct srt as [|d0 rest].
  { apply Permutation_nil in PS. rewrite PS in Eds. destruct l1; discriminate. }
  exists d0, rest. split; [reflexivity|].
  assert (In0 : In d0 ds) by (eapply Permutation_in; [exact PS|left; reflexivity]).
  assert (Ind : In d (d0 :: rest)) by (eapply Permutation_in; [symmetry; exact PS|rewrite Eds; apply in_elt]).
  assert (L : np_le (ranked_loss check fitted d0) (ranked_loss check fitted d)).
  { destruct Ind as [<-|Ind].
    - destruct (Hall d0 In0); [left|right]; auto.
    - inversion SS as [|? ? _ HF]; subst. rewrite Forall_forall in HF. apply HF. exact Ind. }
  destruct L as [L|L]; [rewrite L in Hfin; discriminate|].
  destruct (Hall d0 In0) as [A|A].
  - rewrite A in L. destruct (ranked_loss check fitted d); discriminate.
  - destruct (ranked_loss check fitted d0), (ranked_loss check fitted d); cbn in *; try discriminate; try reflexivity.
    apply xleb_fin in A, L. f_equal. lra.
Qed.
Example C28_order_applies : is_argsort [NaN; Fin 2; PInf; Fin 1] [3; 1; 2; 0]%nat.
Proof.
  split.
  - apply NoDup_Permutation.
    + repeat (constructor; [cbn; intuition discriminate|]). constructor.
    + apply seq_NoDup.
    + intro x. cbn. intuition.
  - assert (xleb (Fin 1) (Fin 2) = true) by (apply xleb_fin; lra).
    repeat apply SSorted_cons; try apply SSorted_nil; repeat apply Forall_cons; try apply Forall_nil; unfold np_le; cbn [nth]; auto.
Qed.

(* ---------------- C29 ---------------- *)
(** AICc's small-sample penalty for k parameters and n observations (Burnham & Anderson 2004), divided by two as the
    log-likelihood is not doubled. *)
Definition aicc (n k : Z) : R := IZR k + IZR k * (IZR k + 1) / (IZR n - IZR k - 1).

Theorem C29_is_aicc : forall n k, (n <> k + 1)%Z -> get_penalization n k = Ok (aicc n k).
Proof.
  intros n k H. unfold get_penalization, aicc. destruct (Z.eqb_spec (- k + n - 1) 0); [lia|]. f_equal. f_equal.
  rewrite mult_IZR, plus_IZR, minus_IZR, plus_IZR, opp_IZR.
  assert (IZR n - IZR k - 1 <> 0).
  { rewrite <- !minus_IZR. apply not_0_IZR. lia. }
  field. lra.
Qed.
Lemma IZR_ge1 a b : (a < b)%Z -> IZR a + 1 <= IZR b.
Proof. intro H. rewrite <- plus_IZR. apply IZR_le. lia. Qed.
(** With enough data it is at least k, increases with the number of parameters and decreases with the sample size. *)
Theorem C29_enough_data : forall n k, (0 < k)%Z -> (k + 1 < n)%Z ->
  exists p, get_penalization n k = Ok p /\ IZR k < p /\
    (forall k' p', (k < k')%Z -> (k' + 1 < n)%Z -> get_penalization n k' = Ok p' -> p < p') /\
    (forall n' p', (n < n')%Z -> get_penalization n' k = Ok p' -> p' < p).
Proof.
  intros n k Hk Hn. exists (aicc n k). split; [apply C29_is_aicc; lia|]. unfold aicc.
  assert (K1 : 1 <= IZR k) by (apply IZR_le; lia).
  assert (D1 : 1 <= IZR n - IZR k - 1).
  { rewrite <- !minus_IZR. apply IZR_le. lia. }
  assert (G : 0 < IZR k * (IZR k + 1)) by nra.
  split; [|split].
  - enough (0 < IZR k * (IZR k + 1) / (IZR n - IZR k - 1)) by lra. apply Rdiv_lt_0_compat; lra.
  - intros k' p' H1 H2 E. rewrite C29_is_aicc in E by lia. injection E as <-. unfold aicc.
    assert (K2 : IZR k + 1 <= IZR k') by (apply IZR_ge1; lia).
    assert (D2 : 1 <= IZR n - IZR k' - 1).
    { rewrite <- !minus_IZR. apply IZR_le. lia. }
    assert (IZR k * (IZR k + 1) / (IZR n - IZR k - 1) <= IZR k' * (IZR k' + 1) / (IZR n - IZR k' - 1)); [|lra].
    apply Rmult_le_compat; [nra|left; apply Rinv_0_lt_compat; lra|nra|]. apply Rinv_le_contravar; lra.
  - intros n' p' H1 E. rewrite C29_is_aicc in E by lia. injection E as <-. unfold aicc.
    assert (N2 : IZR n + 1 <= IZR n') by (apply IZR_ge1; lia).
    apply Rplus_lt_compat_l. apply Rmult_lt_compat_l; [lra|]. apply Rinv_lt_contravar; [|lra]. apply Rmult_lt_0_compat; lra.
Qed.
Example C29_enough_applies : get_penalization 100 2 = Ok (2 + 6 / 97).
Proof. reflexivity. Qed.
(** With exactly one more observation than parameters the computation fails; with fewer, the penalty is below k and it
    rewards extra parameters. *)
Theorem C29_too_few_data_refuted : forall k, (0 < k)%Z ->
  get_penalization (k + 1) k = Err ZeroDivisionError /\
  (forall n, (0 <= n <= k)%Z -> exists p, get_penalization n k = Ok p /\ p < IZR k) /\
  (exists p p', get_penalization 3 3 = Ok p /\ get_penalization 3 1 = Ok p' /\ p < p').
Proof.
  intros k Hk. split; [|split].
  - unfold get_penalization. replace (- k + (k + 1) - 1)%Z with 0%Z by lia. reflexivity.
  - intros n Hn. exists (aicc n k). split; [apply C29_is_aicc; lia|]. unfold aicc.
    assert (K1 : 1 <= IZR k) by (apply IZR_le; lia).
    assert (IZR n <= IZR k) by (apply IZR_le; lia).
    assert (E : IZR k * (IZR k + 1) / (IZR n - IZR k - 1) = - (IZR k * (IZR k + 1) / (IZR k + 1 - IZR n))) by (field; lra).
    rewrite E. enough (0 < IZR k * (IZR k + 1) / (IZR k + 1 - IZR n)) by lra.
    apply Rdiv_lt_0_compat; nra.
  - exists (3 + 12 / (-1)), (1 + 2 / 1). split; [reflexivity|]. split; [reflexivity|lra].
Qed.

(* ---------------- C30 ---------------- *)
Lemma argmax_from_spec l : forall i bi bv pre,
  List.length pre = i -> nth_error pre bi = Some bv ->
  (forall j v, nth_error pre j = Some v -> v <= bv /\ ((j < bi)%nat -> v < bv)) ->
  exists bv', nth_error (pre ++ l) (argmax_from l i bi bv) = Some bv' /\
    (forall j v, nth_error (pre ++ l) j = Some v -> v <= bv' /\ ((j < argmax_from l i bi bv)%nat -> v < bv')).
Proof.
  induction l as [|x l IH]; intros i bi bv pre HL HB HM; cbn [argmax_from].
  - rewrite app_nil_r. eauto.
  - replace (pre ++ x :: l)%list with ((pre ++ [x]) ++ l)%list by (rewrite <- app_assoc; reflexivity).
    assert (L' : List.length (pre ++ [x]) = S i) by (rewrite app_length; cbn; lia).
    assert (Bi : (bi < List.length pre)%nat) by (apply nth_error_Some; congruence).
    destruct (Rltb_spec bv x) as [Hlt|Hge]; apply IH; auto.
    + rewrite nth_error_app2, HL, Nat.sub_diag by lia. reflexivity.
    + intros j v Hj. destruct (Nat.lt_ge_cases j (List.length pre)) as [Hc|Hc].
      * rewrite nth_error_app1 in Hj by lia. destruct (HM j v Hj). split; [lra|intro; lra].
      * rewrite nth_error_app2 in Hj by lia. destruct (j - List.length pre)%nat as [|m] eqn:Ej.
        -- injection Hj as <-. split; [lra|lia].
        -- destruct m; discriminate.
    + rewrite nth_error_app1 by lia. exact HB.
    + intros j v Hj. destruct (Nat.lt_ge_cases j (List.length pre)) as [Hc|Hc].
      * rewrite nth_error_app1 in Hj by lia. auto.
      * rewrite nth_error_app2 in Hj by lia. destruct (j - List.length pre)%nat as [|m] eqn:Ej.
        -- injection Hj as <-. split; [lra|lia].
        -- destruct m; discriminate.
Qed.

(** On any non-empty grid the discrete mode search returns a grid point where the pmf is largest, the first such. *)
Theorem C30_discrete_mode : forall (pmf : Z -> R) grid, grid <> [] ->
  exists l1 k l2, find_discrete_mode pmf grid = Ok k /\ grid = (l1 ++ k :: l2)%list /\
    (forall z, In z grid -> pmf z <= pmf k) /\ (forall z, In z l1 -> pmf z < pmf k).
Proof.
  intros pmf grid Hg. unfold find_discrete_mode, argmax. destruct grid as [|z0 grid]; [congruence|]. cbn [map bind].
  destruct (argmax_from_spec (map pmf grid) 1 0 (pmf z0) [pmf z0] eq_refl eq_refl) as (bv & HB & HM).
  { intros [|[|j]] v Hj; try discriminate. injection Hj as <-. split; [lra|lia]. }
  set (i := argmax_from (map pmf grid) 1 0 (pmf z0)) in *.
  change ([pmf z0] ++ map pmf grid)%list with (map pmf (z0 :: grid)) in *.
  destruct (nth_error (z0 :: grid) i) as [k|] eqn:Ek.
  2:{ rewrite nth_error_map, Ek in HB. discriminate. }
  rewrite nth_error_map, Ek in HB. injection HB as HB. unfold index. rewrite Ek. subst bv.
  apply nth_error_split in Ek. destruct Ek as (l1 & l2 & E & EL). exists l1, k, l2.
  split; [reflexivity|]. split; [exact E|]. split.
  - intros z Hz. apply In_nth_error in Hz. destruct Hz as [j Hj]. apply (HM j (pmf z)). rewrite nth_error_map, Hj. reflexivity.
  - intros z Hz. apply In_nth_error in Hz. destruct Hz as [j Hj].
    assert (j < List.length l1)%nat by (apply nth_error_Some; congruence).
    apply (HM j (pmf z)); [|lia]. rewrite nth_error_map, E, nth_error_app1, Hj by lia. reflexivity.
Qed.
Example C30_mode_applies : find_discrete_mode (fun z => if Z.eqb z 2 then 1/2 else 1/4) [1; 2; 3]%Z = Ok 2%Z.
Proof.
  unfold find_discrete_mode, argmax. cbn. destruct (Rltb_spec (1/4) (1/2)); [|lra]. cbn.
  destruct (Rltb_spec (1/2) (1/4)); [lra|]. reflexivity.
Qed.
(** On an empty grid it raises. *)
Theorem C30_empty_grid : forall pmf, find_discrete_mode pmf [] = Err ValueError.
Proof. reflexivity. Qed.

Print Assumptions C27_best_feasible.
Print Assumptions C27_none_feasible.
Print Assumptions C27_starting_points.
Print Assumptions C28_fit_to_sample.
Print Assumptions C28_mle_order.
Print Assumptions C28_fit_to_quartile.
Print Assumptions C29_enough_data.
Print Assumptions C29_too_few_data_refuted.
Print Assumptions C30_discrete_mode.
