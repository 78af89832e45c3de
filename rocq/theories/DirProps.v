(** Property theorems for the Dirichlet mode elicitation: C31. *)
From Coq Require Import List Bool String Reals ZArith Lra Lia Psatz.
From Verif Require Import Base RLists XR OptModel SelProps.
Import ListNotations.
Open Scope R_scope.

(** The requested mode, rescaled to sum to one. *)
Definition rescaled (mode : list R) : list R := map (fun m => m / Rsum mode) mode.
(** The mode of a Dirichlet with parameter [alpha], all components above one. *)
Definition has_mode (alpha mode : list R) : Prop :=
  Forall (fun a => 1 < a) alpha /\ map (fun a => (a - 1) / (Rsum alpha - INR (List.length alpha))) alpha = mode.

Lemma Rsum_pos l : l <> [] -> Forall (fun m => 0 < m) l -> 0 < Rsum l.
Proof.
  intros Hn H. destruct H as [|x l Hx H]; [congruence|]. clear Hn. rewrite Rsum_cons. enough (0 <= Rsum l) by lra.
  apply Rsum_nonneg. eapply Forall_impl; [|exact H]. cbn. intros; lra.
Qed.
Lemma Rsum_alpha tau mode : Rsum (alpha_of tau mode) = INR (List.length mode) + tau * Rsum mode.
Proof.
  induction mode as [|m mode IH]; [cbn; unfold Rsum; cbn; lra|]. unfold alpha_of in *. cbn [map]. rewrite !Rsum_cons, IH.
  cbn [List.length]. rewrite S_INR. lra.
Qed.
Lemma alpha_has_mode tau mode : 0 < tau -> mode <> [] -> Forall (fun m => 0 < m) mode -> has_mode (alpha_of tau mode) (rescaled mode).
Proof.
  intros Ht Hn HP. pose proof (Rsum_pos mode Hn HP) as HS. split.
  - unfold alpha_of. apply Forall_forall. intros a Ha. apply in_map_iff in Ha. destruct Ha as (m & <- & Hm).
    rewrite Forall_forall in HP. specialize (HP m Hm). nra.
  - rewrite Rsum_alpha. unfold rescaled, alpha_of at 2. unfold alpha_of. rewrite map_map, map_length. apply map_ext. intro m. field. split; nra.
Qed.

(** Every state of the search: start at one, then any sequence of halvings (true) and increases by half (false). *)
Definition tau_after (steps : list bool) : R :=
  fold_left (fun tau (down : bool) => if down then tau - 0.5 * tau else tau + 0.5 * tau) steps 1.
Lemma tau_pos steps : 0 < tau_after steps.
Proof.
  unfold tau_after. assert (G : forall t, 0 < t -> 0 < fold_left (fun tau (down : bool) => if down then tau - 0.5 * tau else tau + 0.5 * tau) steps t).
  { induction steps as [|[|] steps IH]; intros t Ht; cbn [fold_left]; auto; apply IH; lra. }
  apply G. lra.
Qed.

(** At every iteration, whatever the marginal probabilities were, the parameters exceed one and the mode is the
    requested one, rescaled. *)
Theorem C31_every_iteration : forall mode steps,
  mode <> [] -> Forall (fun m => 0 < m) mode -> has_mode (alpha_of (tau_after steps) mode) (rescaled mode).
Proof. intros mode steps Hn HP. apply alpha_has_mode; auto. apply tau_pos. Qed.
Example C31_iteration_applies : has_mode (alpha_of (tau_after [true; false]) [1/2; 1/4; 1/4]) (rescaled [1/2; 1/4; 1/4]).
Proof. apply C31_every_iteration; [discriminate|repeat constructor; lra]. Qed.

Lemma loop_result fuel prob target : forall tau p alpha,
  dirichlet_loop fuel prob target tau = Some (p, alpha) -> exists steps,
    prob (fold_left (fun tau (down : bool) => if down then tau - 0.5 * tau else tau + 0.5 * tau) steps tau) = (p, alpha) /\
    Rabs (p - target) <= 0.0001.
Proof.
  induction fuel as [|f IH]; intros tau p alpha H; cbn [dirichlet_loop] in H; destruct (prob tau) as [q al] eqn:E.
  - destruct (Rltb_spec 0.0001 (Rabs (q - target))); [discriminate|]. injection H as <- <-. exists []. split; [exact E|lra].
  - destruct (Rltb_spec 0.0001 (Rabs (q - target))).
    + destruct (IH _ _ _ H) as (steps & A & B). exists (Rltb q target :: steps). cbn [fold_left]. split; [|exact B].
      exact A.
    + injection H as <- <-. exists []. split; [exact E|lra].
Qed.

(** The marginals of a Dirichlet are Beta(alpha_i, a0 - alpha_i): the mean over the categories of the probability of
    falling below the bounds. *)
Definition mean_marginal (cdf : R -> R -> R -> R) (alpha lower : list R) : R :=
  Rsum (map (fun al => cdf (fst al) (Rsum alpha - fst al) (snd al)) (combine alpha lower)) / INR (List.length alpha).
(** The mode the bounds are taken around: rescaled unless it already sums to one to 1e-4. *)
Definition working_mode (mode : list R) : list R := if Rlt_dec (Rabs (Rsum mode - 1)) 0.0001 then mode else rescaled mode.

Lemma existsb_combine_map (f : R -> R) (P : R * R -> bool) l : existsb P (combine l (map f l)) = existsb (fun x => P (x, f x)) l.
Proof. induction l; cbn; [reflexivity|]. rewrite IHl. reflexivity. Qed.

Lemma rescaled_sum mode : mode <> [] -> Forall (fun m => 0 < m) mode -> Rsum (rescaled mode) = 1.
Proof.
  intros Hn HP. pose proof (Rsum_pos mode Hn HP). unfold rescaled. rewrite (Rsum_map_div (Rsum mode) (fun m => m)), map_id. field. lra.
Qed.
Lemma rescaled_pos mode : Forall (fun m => 0 < m) mode -> Forall (fun m => 0 < m) (rescaled mode).
Proof.
  intro HP. destruct mode as [|m0 mode]; [constructor|]. assert (0 < Rsum (m0 :: mode)) by (apply Rsum_pos; [discriminate|exact HP]).
  unfold rescaled. apply Forall_forall. intros x Hx. apply in_map_iff in Hx. destruct Hx as (m & <- & Hm).
  rewrite Forall_forall in HP. apply Rdiv_lt_0_compat; auto.
Qed.
Lemma rescaled_idem mode : mode <> [] -> Forall (fun m => 0 < m) mode -> rescaled (rescaled mode) = rescaled mode.
Proof.
  intros Hn HP. unfold rescaled at 1. rewrite rescaled_sum by auto.
  rewrite <- (map_id (rescaled mode)) at 2. apply map_ext. intro; lra.
Qed.
Lemma working_props mode : mode <> [] -> Forall (fun m => 0 < m) mode ->
  working_mode mode <> [] /\ Forall (fun m => 0 < m) (working_mode mode) /\ rescaled (working_mode mode) = rescaled mode /\
  Rabs (Rsum (working_mode mode) - 1) < 0.0001 /\ List.length (working_mode mode) = List.length mode.
Proof.
  intros Hn HP. unfold working_mode. destruct (Rlt_dec _ _) as [H|H].
  - auto.
  - split; [unfold rescaled; destruct mode; [congruence|discriminate]|]. split; [apply rescaled_pos; auto|].
    split; [apply rescaled_idem; auto|]. rewrite rescaled_sum by auto.
    split; [replace (1 - 1) with 0 by lra; rewrite Rabs_R0; lra|]. unfold rescaled. apply map_length.
Qed.
Lemma dirichlet_mode_unfold fuel cdf mode mass bound : 0 < mass <= 1 -> mode <> [] -> Forall (fun m => 0 < m) mode ->
  dirichlet_mode fuel cdf mode mass bound =
  match optimize_dirichlet_mode fuel cdf (map (fun m => clip01 (m - bound)) (working_mode mode)) (working_mode mode) ((1 - mass) / 2) with
  | None => Ok None
  | Some (_, alpha) =>
      let calc := map (fun a => (a - 1) / (Rsum alpha - INR (List.length alpha))) alpha in
      Ok (Some (alpha, existsb (fun mc => Rltb 0.01 (fst mc - snd mc)) (combine (working_mode mode) calc)))
  end.
Proof.
  intros Hm Hn HP. unfold dirichlet_mode. rewrite (Rltb_true 0 mass), (Rleb_true mass 1) by lra. cbn [andb negb].
  assert (X : forallb (fun m => Rltb 0 m) mode = true).
  { apply forallb_forall. intros m Hm'. rewrite Forall_forall in HP. apply Rltb_true. auto. }
  rewrite X. cbn [negb]. destruct mode as [|m0 mode]; [congruence|].
  set (mm := m0 :: mode) in *. 
  assert (W : (if Rltb (Rabs (Rsum mm - 1)) 0.0001 then mm else map (fun m => m / Rsum mm) mm) = working_mode mm).
  { unfold working_mode, Rltb. destruct (Rlt_dec _ _); reflexivity. }
  cbv zeta. rewrite W. reflexivity.
Qed.

(** Whenever dirichlet_mode returns: every parameter exceeds one, the mode of the result is the requested mode rescaled
    to sum to one, the mean marginal probability of falling more than [bound] below the mode is within 1e-4 of
    (1 - mass) / 2, and the warning about a wrong mode is never issued. *)
Theorem C31_returned_mode : forall fuel cdf mode mass bound alpha warn,
  mode <> [] -> dirichlet_mode fuel cdf mode mass bound = Ok (Some (alpha, warn)) ->
  has_mode alpha (rescaled mode) /\ List.length alpha = List.length mode /\
  Rabs (mean_marginal cdf alpha (map (fun m => clip01 (m - bound)) (working_mode mode)) - (1 - mass) / 2) <= 1 / 10000 /\
  warn = false.
Proof.
  intros fuel cdf mode mass bound alpha warn Hn H.
  assert (V : 0 < mass <= 1 /\ Forall (fun m => 0 < m) mode).
  { unfold dirichlet_mode in H. destruct (Rltb_spec 0 mass); [|discriminate]. destruct (Rleb_spec mass 1); [|discriminate].
    cbn [andb negb] in H. destruct (forallb (fun m => Rltb 0 m) mode) eqn:E; [|discriminate]. split; [lra|].
    rewrite forallb_forall in E. apply Forall_forall. intros m Hm. apply Rltb_lt. auto. }
  destruct V as [Hm HP]. rewrite dirichlet_mode_unfold in H by auto.
  destruct (working_props mode Hn HP) as (Wn & WP & WR & WS & WL).
  destruct (optimize_dirichlet_mode _ _ _ _ _) as [[p al]|] eqn:E; [|discriminate]. cbn zeta in H. injection H as <- <-.
  unfold optimize_dirichlet_mode in E. apply loop_result in E. destruct E as (steps & EP & EB). fold (tau_after steps) in EP.
  unfold prob_approx in EP. injection EP as Ep <-.
  pose proof (C31_every_iteration (working_mode mode) steps Wn WP) as HM. rewrite WR in HM.
  split; [exact HM|]. split; [unfold alpha_of; rewrite map_length; exact WL|]. split.
  - unfold mean_marginal. rewrite map_length, combine_length, map_length in Ep.
    assert (LA : List.length (alpha_of (tau_after steps) (working_mode mode)) = List.length (working_mode mode)) by (unfold alpha_of; apply map_length).
    rewrite LA, Nat.min_id in Ep. rewrite LA, Ep. lra.
  - destruct HM as [_ HM]. rewrite HM. rewrite <- WR. unfold rescaled. rewrite existsb_combine_map.
    apply not_true_is_false. intro X. apply existsb_exists in X. destruct X as (m & Hin & Hlt). cbn [fst snd] in Hlt. apply Rltb_lt in Hlt.
    pose proof (Rsum_pos _ Wn WP) as SP. set (s := Rsum (working_mode mode)) in *.
    assert (m <= s).
    { unfold s. clear - Hin WP. induction (working_mode mode) as [|x l IH]; [contradiction|]. inversion WP; subst. rewrite Rsum_cons.
      assert (0 <= Rsum l) by (apply Rsum_nonneg; eapply Forall_impl; [|exact H2]; cbn; intros; lra).
      destruct Hin as [->|Hin]; [lra|]. specialize (IH H2 Hin). lra. }
    assert (0 < m) by (rewrite Forall_forall in WP; auto).
    apply Rabs_def2 in WS. assert (E1 : m - m / s = (m / s) * (s - 1)) by (field; lra). rewrite E1 in Hlt.
    assert (0 < m / s <= 1).
    { split; [apply Rdiv_lt_0_compat; lra|]. apply Rmult_le_reg_r with s; [lra|]. unfold Rdiv. rewrite Rmult_assoc, Rinv_l by lra. lra. }
    nra.
Qed.
(** It agrees with what the Dirichlet reports as its mode. *)
Theorem C31_reported_mode : forall alpha mode, has_mode alpha mode -> dirichlet_mode_of alpha = Some mode.
Proof.
  intros alpha mode [H1 <-]. unfold dirichlet_mode_of.
  assert (X : forallb (fun a => Rltb 1 a) alpha = true).
  { apply forallb_forall. intros a Ha. rewrite Forall_forall in H1. apply Rltb_true. auto. }
  rewrite X. reflexivity.
Qed.
Example C31_returned_applies : exists alpha warn,
  dirichlet_mode 1 (fun _ _ _ => 1/4) [2; 1; 1] (1/2) (1/10) = Ok (Some (alpha, warn)).
Proof.
  assert (P : Forall (fun m => 0 < m) [2; 1; 1]) by (repeat constructor; lra).
  rewrite dirichlet_mode_unfold; [|lra|discriminate|exact P].
  destruct (working_props [2; 1; 1] ltac:(discriminate) P) as (_ & _ & _ & _ & WL).
  set (w := working_mode [2; 1; 1]) in *. clearbody w. destruct w as [|a [|b [|c [|]]]]; try discriminate WL.
  unfold optimize_dirichlet_mode, dirichlet_loop, prob_approx, alpha_of. cbn [map combine fst snd List.length]. rewrite !Rsum_cons, !Rsum_nil.
  match goal with |- context [Rabs ?x] => replace x with 0 by (cbn [INR]; lra) end. rewrite Rabs_R0.
  rewrite (Rltb_false 0.0001 0) by lra. eexists. eexists. reflexivity.
Qed.

(** Validation. *)
Theorem C31_validation : forall fuel cdf mode mass bound,
  dirichlet_mode fuel cdf mode mass bound = Err ValueError <-> ~ (0 < mass <= 1) \/ ~ Forall (fun m => 0 < m) mode.
Proof.
  intros fuel cdf mode mass bound. split.
  - intro H. unfold dirichlet_mode in H. destruct (Rltb_spec 0 mass); [|left; lra]. destruct (Rleb_spec mass 1); [|left; lra].
    cbn [andb negb] in H. destruct (forallb (fun m => Rltb 0 m) mode) eqn:E.
    + exfalso. cbn [negb] in H. destruct mode as [|m0 mode]; [discriminate|].
      destruct (optimize_dirichlet_mode _ _ _ _ _) as [[? ?]|]; discriminate.
    + right. intro HP. rewrite (proj2 (forallb_forall _ _)) in E; [discriminate|].
      intros m Hm. rewrite Forall_forall in HP. apply Rltb_true. auto.
  - intros H. unfold dirichlet_mode. destruct (Rltb_spec 0 mass); [|reflexivity]. destruct (Rleb_spec mass 1); [|reflexivity].
    cbn [andb negb]. destruct H as [H|H]; [lra|]. destruct (forallb (fun m => Rltb 0 m) mode) eqn:E; [|reflexivity].
    exfalso. apply H. rewrite forallb_forall in E. apply Forall_forall. intros m Hm. apply Rltb_lt. auto.
Qed.
Example C31_validation_applies : ~ Forall (fun m => 0 < m) [1/2; 0; 1/2].
Proof. intro H. inversion H as [|? ? _ H']; subst. inversion H'; subst. lra. Qed.

(** If the bound is at least as large as every component of the mode, all lower bounds are zero, the marginal
    probabilities are zero for every concentration, and the search never ends. *)
Theorem C31_large_bound_diverges_refuted : forall cdf mode mass bound,
  (forall a b, cdf a b 0 = 0) -> mode <> [] -> Forall (fun m => 0 < m) mode -> Rsum mode = 1 ->
  Forall (fun m => m <= bound) mode -> 0 < mass < 0.9998 ->
  forall fuel, dirichlet_mode fuel cdf mode mass bound = Ok None.
Proof.
  intros cdf mode mass bound HC Hn HP HS HB Hm fuel. rewrite dirichlet_mode_unfold by (auto; lra).
  assert (W : working_mode mode = mode).
  { unfold working_mode. rewrite HS. destruct (Rlt_dec _ _) as [|H]; [reflexivity|]. exfalso. apply H.
    replace (1 - 1) with 0 by lra. rewrite Rabs_R0. lra. }
  rewrite W.
  assert (L : map (fun m => clip01 (m - bound)) mode = map (fun _ => 0) mode).
  { apply map_ext_in. intros m Hin. rewrite Forall_forall in HB. specialize (HB m Hin). unfold clip01.
    rewrite Rmax_right by lra. apply Rmin_left. lra. }
  rewrite L.
  assert (P0 : forall tau, fst (prob_approx cdf (map (fun _ => 0) mode) mode tau) = 0).
  { intro tau. unfold prob_approx. cbn [fst].
    assert (Z : forall l (m : list R), map (fun al => cdf (fst al) (Rsum (alpha_of tau mode) - fst al) (snd al)) (combine l (map (fun _ => 0) m)) =
      map (fun _ => 0) (combine l (map (fun _ => 0) m))).
    { intros l m. apply map_ext_in. intros [a z] Hin. apply in_combine_r in Hin. apply in_map_iff in Hin. destruct Hin as (? & <- & _).
      cbn [fst snd]. apply HC. }
    rewrite Z. rewrite Rsum_map_const. unfold Rdiv. ring. }
  assert (G : forall fuel tau, dirichlet_loop fuel (prob_approx cdf (map (fun _ => 0) mode) mode) ((1 - mass) / 2) tau = None).
  { induction fuel0 as [|f IH]; intro tau; cbn [dirichlet_loop]; specialize (P0 tau);
      destruct (prob_approx cdf (map (fun _ => 0) mode) mode tau) as [q al]; cbn [fst] in P0; subst q;
      (replace (Rltb 0.0001 (Rabs (0 - (1 - mass) / 2))) with true;
       [|symmetry; apply Rltb_true; rewrite Rabs_left by lra; lra]); [reflexivity|apply IH]. }
  unfold optimize_dirichlet_mode. rewrite G. reflexivity.
Qed.

Print Assumptions C31_returned_mode.
Print Assumptions C31_validation.
Print Assumptions C31_large_bound_diverges_refuted.
