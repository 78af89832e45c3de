(** Property theorems for pooling: C35 (combine_roulette) and the combine part of C19. *)
From Coq Require Import List Bool ZArith Reals Lra Lia.
From Verif Require Import Base RLists XR PoolModel PoolSpec PoolProofs.
Import ListNotations.
Open Scope R_scope.

Lemma grid_eqb_true a b : grid_eqb a b = true <-> a = b.
Proof.
  destruct a as [[a1 a2] [a3 a4]], b as [[b1 b2] [b3 b4]]. unfold grid_eqb; simpl.
  rewrite !andb_true_iff, !Z.eqb_eq. unfold Reqb.
  destruct (Req_EM_T a1 b1), (Req_EM_T a2 b2); intuition congruence.
Qed.

Lemma same_grid_test r rs : same_grid (r :: rs) ->
  forallb (fun q => grid_eqb (r_grid q) (r_grid r)) (r :: rs) = true.
Proof.
  intro H. apply forallb_forall. intros q Hq. apply grid_eqb_true, H; [exact Hq|left; reflexivity].
Qed.

(** Internal normal form: the pooled histogram in terms of [pool]. *)
Lemma combine_roulette_ok rs ws :
  rs <> [] -> same_grid rs -> (forall r, In r rs -> elicited r) -> Forall (fun w => 0 <= w) ws ->
  0 < over_experts rs ws (fun _ => 1) ->
  let T := over_experts rs ws (fun _ => 1) in
  0 < Rsum ws /\
  exists p, combine_roulette rs (Some ws) = Ok p /\
    let d := pool rs (map (fun x => x / Rsum ws) ws) in
    p_x p = map fst d /\ p_pdf p = map snd (map (fun xv => (fst xv, snd xv / (T / Rsum ws))) d) /\
    (forall f, dsum f (combine (p_x p) (p_pdf p)) = over_experts rs ws (contrib f) / T) /\
    p_mean p = over_experts rs ws (contrib (fun x => x)) / T /\
    p_std p = sqrt (dsum (fun x => (x - p_mean p) ^ 2) (combine (p_x p) (p_pdf p))).
Proof.
  intros Hne Hg Hel Hw HT T.
  assert (HS : 0 < Rsum ws).
  { destruct (Rle_lt_dec (Rsum ws) 0) as [L|L]; [|exact L]. exfalso.
    pose proof (Rsum_nonneg ws Hw) as N.
    assert (Z : Rsum ws = 0) by lra. assert (A : forall w, In w ws -> w = 0).
    { apply (Rsum_zero_all (fun x => x)); [apply Forall_forall; exact Hw|rewrite map_id; exact Z]. }
    assert (over_experts rs ws (fun _ => 1) = 0).
    { clear HT T Hne Hg Hel. unfold over_experts. revert rs A. clear. induction ws as [|w ws IH]; intros [|r rs] A; simpl; auto.
      rewrite (A w) by (left; auto). rewrite IH by (intros; apply A; right; auto). lra. }
    lra. }
  split; [exact HS|].
  assert (Htot : Rsum (map snd (pool rs (map (fun x => x / Rsum ws) ws))) = T / Rsum ws).
  { replace (Rsum (map snd (pool rs (map (fun x => x / Rsum ws) ws))))
      with (dsum (fun _ => 1) (pool rs (map (fun x => x / Rsum ws) ws)))
      by (unfold dsum; apply Rsum_map_ext; intros; lra).
    rewrite dsum_pool, over_experts_scale. unfold T. f_equal. apply over_experts_ext.
    intros r Hr. apply contrib_one, Hel, Hr. }
  assert (HTp : 0 < T / Rsum ws) by (apply Rdiv_lt_0_compat; auto).
  unfold combine_roulette. rewrite norm_some by auto. simpl bind.
  destruct rs as [|r0 rs]; [congruence|].
  rewrite (same_grid_test r0 rs Hg). simpl negb. cbn iota.
  rewrite Htot. destruct (Reqb_spec (T / Rsum ws) 0); [lra|]. simpl andb. cbn iota.
  set (d := pool (r0 :: rs) (map (fun x => x / Rsum ws) ws)) in *.
  set (d' := map (fun xv : R * R => (fst xv, snd xv / (T / Rsum ws))) d).
  assert (Hd : forall f, dsum f d' = over_experts (r0 :: rs) ws (contrib f) / T).
  { intro f. unfold dsum, d'. rewrite map_map. cbn [fst snd].
    rewrite (Rsum_map_ext _ (fun xv => (f (fst xv) * snd xv) / (T / Rsum ws))) by (intros; unfold Rdiv; ring).
    rewrite Rsum_map_div. fold (dsum f d). unfold d. rewrite dsum_pool, over_experts_scale.
    assert (0 < T) by exact HT. unfold T in *. field. split; lra. }
  assert (Hc : combine (map fst d') (map snd d') = d') by apply combine_fst_snd.
  eexists; split; [reflexivity|]. cbn [p_x p_pdf p_mean p_std].
  fold d'. rewrite Hc. repeat split.
  - unfold d'. rewrite map_map. reflexivity.
  - exact Hd.
  - rewrite <- Hd. unfold dsum. reflexivity.
  - f_equal. unfold dsum. apply Rsum_map_ext. intros; ring.
Qed.

Lemma mass_contrib x r : elicited r ->
  contrib (fun y => if Req_EM_T y x then 1 else 0) r = mass_at x (r_x r) (r_pdf r).
Proof.
  intros _. unfold contrib, mass_at. fold (Rsum (map (fun xp : R * R => if Req_EM_T (fst xp) x then snd xp else 0)
    (combine (r_x r) (r_pdf r)))). apply Rsum_map_ext. intros [a b] _; simpl. destruct (Req_EM_T a x); lra.
Qed.

(* ---------------- C35 ---------------- *)
(** The pooled histogram is a probability vector over distinct values, and the probability of every
    single value is the chips-and-weights average of the experts' probabilities. *)
Theorem C35_pooled_is_weighted_mixture :
  forall rs ws,
    rs <> [] -> same_grid rs -> (forall r, In r rs -> elicited r) -> Forall (fun w => 0 <= w) ws ->
    0 < over_experts rs ws (fun _ => 1) ->
    exists p, combine_roulette rs (Some ws) = Ok p /\
      length (p_x p) = length (p_pdf p) /\ NoDup (p_x p) /\
      Forall (fun q => 0 <= q) (p_pdf p) /\ fold_right Rplus 0 (p_pdf p) = 1 /\
      forall x, mass_at x (p_x p) (p_pdf p) =
        over_experts rs ws (fun r => mass_at x (r_x r) (r_pdf r)) / over_experts rs ws (fun _ => 1).
Proof.
  intros rs ws H1 H2 H3 H4 H5. destruct (combine_roulette_ok rs ws H1 H2 H3 H4 H5) as [HS [p [E [A [B [C _]]]]]].
  exists p. split; [exact E|]. split; [rewrite A, B, !map_length; reflexivity|].
  split; [rewrite A; apply pool_nodup|]. split; [|split].
  - rewrite B. rewrite map_map. cbn [snd]. apply Forall_forall. intros q Hq. apply in_map_iff in Hq.
    destruct Hq as [[x v] [<- Hin]]. cbn [snd].
    assert (Hn : Forall (fun xv : R * R => 0 <= snd xv) (pool rs (map (fun x => x / Rsum ws) ws))).
    { apply pool_nonneg; auto. apply Forall_forall. intros w Hw. apply in_map_iff in Hw. destruct Hw as [w0 [<- Hw0]].
      rewrite Forall_forall in H4. apply Rle_mult_inv_pos; auto. }
    rewrite Forall_forall in Hn. specialize (Hn _ Hin). simpl in Hn.
    apply Rle_mult_inv_pos; [exact Hn|]. apply Rdiv_lt_0_compat; auto.
  - pose proof (C (fun _ => 1)) as C1.
    rewrite (over_experts_ext rs ws (contrib (fun _ => 1)) (fun _ => 1)) in C1 by (intros; apply contrib_one; auto).
    unfold dsum in C1. rewrite (Rsum_map_ext _ snd) in C1 by (intros; lra).
    replace (map snd (combine (p_x p) (p_pdf p))) with (p_pdf p) in C1.
    + unfold Rsum in C1. rewrite C1. field. lra.
    + rewrite A, B. rewrite map_map; cbn [snd].
      rewrite combine_map2, !map_map. reflexivity.
  - intro x. specialize (C (fun y => if Req_EM_T y x then 1 else 0)).
    rewrite <- dmass_dsum in C. unfold dmass, Rsum in C. unfold mass_at at 1. rewrite C.
    f_equal. apply over_experts_ext. intros r Hr. apply mass_contrib. auto.
Qed.

(** The mean handed to the fit is the chips-and-weights average of the experts' means, and the standard
    deviation is that of the pooled histogram. *)
Theorem C35_pooled_moments :
  forall rs ws,
    rs <> [] -> same_grid rs -> (forall r, In r rs -> elicited r) -> Forall (fun w => 0 <= w) ws ->
    0 < over_experts rs ws (fun _ => 1) ->
    exists p, combine_roulette rs (Some ws) = Ok p /\
      p_mean p = expectation (p_x p) (p_pdf p) /\
      p_mean p = over_experts rs ws (fun r => expectation (r_x r) (r_pdf r)) / over_experts rs ws (fun _ => 1) /\
      p_std p = sqrt (expectation (map (fun x => (x - p_mean p) ^ 2) (p_x p)) (p_pdf p)).
Proof.
  intros rs ws H1 H2 H3 H4 H5. destruct (combine_roulette_ok rs ws H1 H2 H3 H4 H5) as [HS [p [E [A [B [C [D F]]]]]]].
  exists p. split; [exact E|]. split; [|split].
  - rewrite D, <- C. reflexivity.
  - rewrite D. f_equal.
  - rewrite F. f_equal. unfold dsum, expectation, Rsum. f_equal.
    generalize (p_pdf p). generalize (p_mean p). clear. intros m. induction (p_x p) as [|x xs IH]; intros [|q qs]; simpl; auto.
    rewrite IH. reflexivity.
Qed.

(** Only the relative size of the weights matters. *)
Theorem C35_weight_scale_invariant :
  forall rs ws k,
    rs <> [] -> same_grid rs -> (forall r, In r rs -> elicited r) -> Forall (fun w => 0 <= w) ws ->
    0 < over_experts rs ws (fun _ => 1) -> 0 < k ->
    combine_roulette rs (Some (map (fun w => k * w) ws)) = combine_roulette rs (Some ws).
Proof.
  intros rs ws k H1 H2 H3 H4 H5 Hk.
  destruct (combine_roulette_ok rs ws H1 H2 H3 H4 H5) as [HS _].
  assert (Hk' : Forall (fun w => 0 <= w) (map (fun w => k * w) ws)).
  { rewrite Forall_map. eapply Forall_impl; [|exact H4]. intros; simpl. apply Rmult_le_pos; lra. }
  assert (HSk : Rsum (map (fun w => k * w) ws) = k * Rsum ws).
  { rewrite (Rsum_map_scal k (fun x => x)), map_id. reflexivity. }
  unfold combine_roulette. rewrite !norm_some; auto; [|rewrite HSk; apply Rmult_lt_0_compat; auto].
  rewrite map_map, HSk.
  replace (map (fun x => k * x / (k * Rsum ws)) ws) with (map (fun x => x / Rsum ws) ws); [reflexivity|].
  apply map_ext. intro x. field. lra.
Qed.

(** Without weights every expert counts the same. *)
Theorem C35_default_weights_equal :
  forall rs, rs <> [] -> combine_roulette rs None = combine_roulette rs (Some (map (fun _ => 1) rs)).
Proof.
  intros rs H. unfold combine_roulette.
  assert (L : (0 < length rs)%nat) by (destruct rs; simpl; [congruence|lia]).
  assert (LR : 0 < INR (length rs)) by (apply lt_0_INR; lia).
  assert (S : Rsum (map (fun _ : response => 1) rs) = INR (length rs)).
  { clear. induction rs as [|r rs IH]; [reflexivity|]. simpl map. rewrite Rsum_cons, IH.
    change (length (r :: rs)) with (Datatypes.S (length rs)). rewrite S_INR. lra. }
  rewrite norm_none by auto. rewrite norm_some; [|rewrite Forall_map; apply Forall_forall; intros; lra|rewrite S; lra].
  rewrite S, map_map.
  replace (map (fun _ : response => 1 / INR (length rs)) rs) with (repeat (1 / INR (length rs)) (length rs)); [reflexivity|].
  generalize (1 / INR (length rs)). clear. intro c. induction rs; simpl; congruence.
Qed.

(** Histograms elicited on different grids are rejected, and so are negative weights. *)
Theorem C35_different_grids_rejected :
  forall rs ws a b,
    Forall (fun w => 0 <= w) ws -> 0 < fold_right Rplus 0 ws -> In a rs -> In b rs -> r_grid a <> r_grid b ->
    combine_roulette rs (Some ws) = Err ValueError.
Proof.
  intros rs ws a b H1 H2 Ha Hb N. unfold combine_roulette. rewrite norm_some by auto. simpl bind.
  destruct rs as [|r0 rs]; [contradiction|].
  destruct (forallb (fun r => grid_eqb (r_grid r) (r_grid r0)) (r0 :: rs)) eqn:E; [|reflexivity].
  exfalso. rewrite forallb_forall in E. pose proof (E a Ha) as Ea. pose proof (E b Hb) as Eb.
  apply grid_eqb_true in Ea. apply grid_eqb_true in Eb. congruence.
Qed.

Theorem C35_negative_weight_rejected :
  forall rs ws w, In w ws -> w < 0 -> combine_roulette rs (Some ws) = Err ValueError.
Proof.
  intros rs ws w Hin Hw. unfold combine_roulette, norm_weights.
  replace (existsb (fun x => Rltb x 0) ws) with true; [reflexivity|].
  symmetry. apply existsb_exists. exists w. split; [exact Hin|]. destruct (Rltb_spec w 0); [reflexivity|contradiction].
Qed.

Definition ex_a : response := {| r_x := [1; 2]; r_pdf := [1/2; 1/2]; r_chips := 10; r_grid := ((0, 3), (10, 3)%Z) |}.
Definition ex_b : response := {| r_x := [2; 3]; r_pdf := [1/4; 3/4]; r_chips := 20; r_grid := ((0, 3), (10, 3)%Z) |}.

Lemma C35_example_hyps :
  [ex_a; ex_b] <> [] /\ same_grid [ex_a; ex_b] /\ (forall r, In r [ex_a; ex_b] -> elicited r) /\
  Forall (fun w => 0 <= w) [2; 1] /\ 0 < over_experts [ex_a; ex_b] [2; 1] (fun _ => 1).
Proof.
  repeat split; try discriminate.
  - intros a b Ha Hb. destruct Ha as [<-|[<-|[]]], Hb as [<-|[<-|[]]]; reflexivity.
  - destruct H as [<-|[<-|[]]]; reflexivity.
  - destruct H as [<-|[<-|[]]]; simpl; repeat constructor; lra.
  - destruct H as [<-|[<-|[]]]; simpl; lra.
  - destruct H as [<-|[<-|[]]]; simpl; lra.
  - repeat constructor; lra.
  - unfold over_experts; simpl; lra.
Qed.

(** Two experts share the value 2: it gets (2*10*1/2 + 1*20*1/4)/40 = 15/40. *)
Example C35_example :
  exists p, combine_roulette [ex_a; ex_b] (Some [2; 1]) = Ok p /\ mass_at 2 (p_x p) (p_pdf p) = 15 / 40.
Proof.
  destruct C35_example_hyps as [H1 [H2 [H3 [H4 H5]]]].
  destruct (C35_pooled_is_weighted_mixture _ _ H1 H2 H3 H4 H5) as [p [E [_ [_ [_ [_ M]]]]]].
  exists p. split; [exact E|]. rewrite M. unfold over_experts, mass_at; simpl.
  repeat match goal with |- context [Req_EM_T ?a ?b] => destruct (Req_EM_T a b); [try lra|try lra] end. 
Qed.

(** Finding: a weight list shorter than the list of experts is accepted, and the remaining experts are
    silently ignored. *)
Theorem C35_short_weights_drop_experts_refuted :
  forall r rs w, 0 < w -> combine_roulette (r :: rs) (Some [w]) =
     if forallb (fun q => grid_eqb (r_grid q) (r_grid r)) rs then combine_roulette [r] (Some [w]) else Err ValueError.
Proof.
  intros r rs w Hw.
  assert (Hn : norm_weights (Some [w]) (length (r :: rs)) = norm_weights (Some [w]) 1) by reflexivity.
  unfold combine_roulette. rewrite Hn. rewrite norm_some; [|repeat constructor; lra|unfold Rsum; simpl; lra].
  simpl bind.
  assert (G : grid_eqb (r_grid r) (r_grid r) = true) by (apply grid_eqb_true; reflexivity).
  cbn [forallb]. rewrite G. simpl andb.
  destruct (forallb _ rs); [|reflexivity].
  assert (Hp : forall a, pool (r :: rs) [a] = pool [r] [a]) by (intro; unfold pool; destruct rs; reflexivity).
  rewrite !Hp. unfold norm_weights. cbn [existsb]. destruct (Rltb_spec w 0); [lra|]. cbn [orb].
  destruct (Reqb_spec (Rsum [w]) 0) as [E|E]; [unfold Rsum in E; simpl in E; lra|]. reflexivity.
Qed.

Print Assumptions C35_pooled_is_weighted_mixture.
Print Assumptions C35_pooled_moments.

(* ---------------- C19, combine ---------------- *)
(** Each distribution contributes a number of draws within one of its share, never more than requested,
    and the total misses the requested size by less than the number of distributions. *)
Theorem C19_combine_sizes :
  forall (A : Type) (rvs : nat -> nat -> list A) ws N,
    (forall i n, length (rvs i n) = n) ->
    ws <> [] -> Forall (fun w => 0 <= w) ws -> 0 < fold_right Rplus 0 ws -> (0 <= N)%Z ->
    exists samples, combine_sample rvs (length ws) (Some ws) N = Ok samples /\
      length samples = length ws /\
      (forall i w s, nth_error ws i = Some w -> nth_error samples i = Some s ->
          let share := IZR N * (w / fold_right Rplus 0 ws) in
          INR (length s) <= share < INR (length s) + 1) /\
      (length (concat samples) <= Z.to_nat N)%nat /\
      (Z.to_nat N < length (concat samples) + length ws)%nat.
Proof.
  intros A rvs ws N Hr Hne Hw HS HN. fold (Rsum ws) in *.
  unfold combine_sample. rewrite norm_some by auto. simpl bind.
  set (nw := map (fun x => x / Rsum ws) ws).
  assert (Hnw : Forall (fun w => 0 <= w) nw).
  { unfold nw. rewrite Forall_map. eapply Forall_impl; [|exact Hw]. intros; simpl. apply Rle_mult_inv_pos; auto. }
  assert (Hln : length nw = length ws) by (unfold nw; apply map_length).
  pose proof (n_size_nonneg N nw Hnw HN) as Hnn.
  assert (Hlz : length (n_size N nw) = length ws) by (unfold n_size; rewrite map_length; auto).
  eexists; split; [reflexivity|]. split; [rewrite map_length, combine_length, seq_length, Hlz; lia|].
  assert (Hnth : forall i w, nth_error ws i = Some w ->
     nth_error (combine (seq 0 (length ws)) (n_size N nw)) i = Some (i, Int_part (IZR N * (w / Rsum ws)))).
  { intros i w Hi. assert (Hlt : (i < length ws)%nat) by (apply nth_error_Some; congruence).
    assert (E1 : nth_error (n_size N nw) i = Some (Int_part (IZR N * (w / Rsum ws)))).
    { unfold n_size, nw. rewrite map_map. apply map_nth_error with (f := fun x => Int_part (IZR N * (x / Rsum ws))). exact Hi. }
    assert (E0 : nth_error (seq 0 (length ws)) i = Some i).
    { rewrite (nth_error_nth' _ 0%nat) by (rewrite seq_length; lia). rewrite seq_nth by lia. reflexivity. }
    apply nth_error_combine; auto. }
  split.
  - intros i w s Hi Hs. cbv zeta. rewrite (map_nth_error _ _ _ (Hnth i w Hi)) in Hs. inversion Hs; subst s. cbn [fst snd]. rewrite Hr.
    assert (Hge : (0 <= Int_part (IZR N * (w / Rsum ws)))%Z).
    { rewrite Forall_forall in Hnn. apply Hnn. unfold n_size, nw. rewrite map_map. apply in_map_iff.
      exists w. split; auto. eapply nth_error_In; eauto. }
    rewrite INR_IZR_INZ, Z2Nat.id by auto. pose proof (Int_part_bounds (IZR N * (w / Rsum ws))). fold (Rsum ws). lra.
  - assert (Hsum : forall l (zs : list Z), length l = length zs -> Forall (fun n => (0 <= n)%Z) zs ->
       Z.of_nat (length (concat (map (fun in_ : nat * Z => rvs (fst in_) (Z.to_nat (snd in_))) (combine l zs)))) = fold_right Z.add 0%Z zs).
    { induction l as [|i l IH]; intros [|z zs] Hl Hz; simpl in *; try discriminate; auto.
      inversion Hz; subst. rewrite app_length, Hr, Nat2Z.inj_add, Z2Nat.id, IH; auto. }
    specialize (Hsum (seq 0 (length ws)) (n_size N nw)). rewrite seq_length in Hsum. specialize (Hsum (eq_sym Hlz) Hnn).
    destruct (n_size_sum N nw Hnw HN) as [U [_ L]].
    assert (S1 : Rsum nw = 1) by (unfold nw; apply norm_some_sum; auto). rewrite S1 in *.
    specialize (L ltac:(intro E; apply Hne; destruct ws; [auto|discriminate])).
    rewrite <- Hsum in U, L. rewrite Hln in L. rewrite INR_IZR_INZ in L.
    rewrite Rmult_1_r in *. apply le_IZR in U. rewrite <- minus_IZR in L. apply lt_IZR in L. lia.
Qed.

(** Finding: three equally weighted distributions and a sample size of 1000 give 999 draws. *)
Theorem C19_combine_size_not_exact_refuted :
  forall (A : Type) (rvs : nat -> nat -> list A),
    (forall i n, length (rvs i n) = n) ->
    exists samples, combine_sample rvs 3 None 1000 = Ok samples /\ length (concat samples) = 999%nat.
Proof.
  intros A rvs Hr. unfold combine_sample. rewrite norm_none by lia. cbn [bind].
  eexists; split; [reflexivity|].
  assert (E : Int_part (IZR 1000 * (1 / INR 3)) = 333%Z).
  { apply Int_part_eq. simpl. lra. }
  unfold n_size. cbn [map repeat]. rewrite E. cbn [combine seq]. cbn [map concat fst snd].
  rewrite !app_length, !Hr. reflexivity.
Qed.

Example C19_combine_example :
  [1; 3] <> [] /\ Forall (fun w => 0 <= w) [1; 3] /\ 0 < fold_right Rplus 0 [1; 3] /\ (0 <= 1000)%Z /\
  (forall (i n : nat), length (repeat i n) = n).
Proof. repeat split; try discriminate; try lia; [repeat constructor; lra|simpl; lra|intros; apply repeat_length]. Qed.

Print Assumptions C19_combine_sizes.
