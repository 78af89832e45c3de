From Coq Require Import List Bool ZArith Reals Lra Lia.
From Verif Require Import Base RLists XR PoolModel PoolSpec.
Import ListNotations.
Open Scope R_scope.

Definition dmass (x : R) (d : list (R * R)) : R :=
  Rsum (map (fun xp => if Req_EM_T (fst xp) x then snd xp else 0) d).
Definition dsum (f : R -> R) (d : list (R * R)) : R := Rsum (map (fun xp => f (fst xp) * snd xp) d).

(** Accumulation commutes with every linear statistic of the dictionary. *)
Lemma dsum_add f d x v : dsum f (add_to d x v) = dsum f d + f x * v.
Proof.
  unfold dsum. induction d as [|[x' v'] r IH]; simpl; rewrite ?Rsum_cons, ?Rsum_nil; simpl.
  - lra.
  - destruct (Reqb_spec x x') as [->|N]; simpl; rewrite ?Rsum_cons; simpl; [lra|]. rewrite IH. lra.
Qed.

Lemma dmass_dsum x d : dmass x d = dsum (fun y => if Req_EM_T y x then 1 else 0) d.
Proof. unfold dmass, dsum. apply Rsum_map_ext. intros [y v] _; simpl. destruct (Req_EM_T y x); lra. Qed.

Definition contrib (f : R -> R) (r : response) : R :=
  Rsum (map (fun xp => f (fst xp) * snd xp) (combine (r_x r) (r_pdf r))).

Lemma dsum_inner f w c l d :
  dsum f (fold_left (fun d xp => add_to d (fst xp) (snd xp * w * c)) l d)
  = dsum f d + w * c * Rsum (map (fun xp : R * R => f (fst xp) * snd xp) l).
Proof.
  revert d; induction l as [|[x p] l IH]; intro d; simpl; rewrite ?Rsum_nil, ?Rsum_cons; [lra|].
  rewrite IH, dsum_add. simpl. lra.
Qed.

Lemma dsum_pool_gen f l d :
  dsum f (fold_left (fun d (rw : response * R) =>
     let '(r, w) := rw in
     fold_left (fun d xp => add_to d (fst xp) (snd xp * w * r_chips r)) (combine (r_x r) (r_pdf r)) d) l d)
  = dsum f d + Rsum (map (fun rw => snd rw * r_chips (fst rw) * contrib f (fst rw)) l).
Proof.
  revert d; induction l as [|[r w] l IH]; intro d; simpl; rewrite ?Rsum_nil, ?Rsum_cons; [lra|].
  rewrite IH, dsum_inner. unfold contrib; simpl. lra.
Qed.

Lemma dsum_pool f rs ws : dsum f (pool rs ws) = over_experts rs ws (contrib f).
Proof.
  unfold pool. rewrite dsum_pool_gen. unfold dsum, over_experts, Rsum; simpl. lra.
Qed.

Lemma add_to_keys d x v : 
  (In x (map fst d) -> map fst (add_to d x v) = map fst d) /\
  (~ In x (map fst d) -> map fst (add_to d x v) = map fst d ++ [x]).
Proof.
  induction d as [|[x' v'] r [IH1 IH2]]; simpl.
  - split; [tauto|reflexivity].
  - destruct (Reqb_spec x x') as [->|N]; simpl.
    + split; [reflexivity|tauto].
    + split; intro H.
      * rewrite IH1; [reflexivity|]. destruct H; [congruence|auto].
      * rewrite IH2; [reflexivity|tauto].
Qed.

Lemma add_to_nodup d x v : NoDup (map fst d) -> NoDup (map fst (add_to d x v)).
Proof.
  intro H. destruct (add_to_keys d x v) as [A B].
  destruct (in_dec Req_EM_T x (map fst d)) as [I|N].
  - rewrite A; auto.
  - rewrite B by exact N. apply (Permutation.Permutation_NoDup (Permutation.Permutation_cons_append (map fst d) x)).
    constructor; auto.
Qed.

Lemma pool_gen_inv (P : list (R * R) -> Prop) (Q : R -> Prop) l d :
  (forall d x v, P d -> Q v -> P (add_to d x v)) ->
  (forall r w x p, In (r, w) l -> In (x, p) (combine (r_x r) (r_pdf r)) -> Q (p * w * r_chips r)) ->
  P d ->
  P (fold_left (fun d (rw : response * R) =>
     let '(r, w) := rw in
     fold_left (fun d xp => add_to d (fst xp) (snd xp * w * r_chips r)) (combine (r_x r) (r_pdf r)) d) l d).
Proof.
  intros Hadd. revert d; induction l as [|[r w] l IH]; intros d Hq Hd; simpl; [exact Hd|].
  apply IH; [intros; eapply Hq; eauto; right; auto|].
  assert (Hi : forall x p, In (x, p) (combine (r_x r) (r_pdf r)) -> Q (p * w * r_chips r))
    by (intros; eapply Hq; eauto; left; auto).
  clear IH Hq. revert d Hd Hi. induction (combine (r_x r) (r_pdf r)) as [|[x p] m IHm]; intros d Hd Hi; simpl; [auto|].
  apply IHm; [|intros; eapply Hi; right; eauto]. apply Hadd; [exact Hd|]. eapply Hi; left; reflexivity.
Qed.

Lemma pool_nodup rs ws : NoDup (map fst (pool rs ws)).
Proof.
  unfold pool. apply (pool_gen_inv (fun d => NoDup (map fst d)) (fun _ => True)); auto.
  - intros; apply add_to_nodup; auto.
  - constructor.
Qed.

Lemma add_to_nonneg d x v :
  Forall (fun xv : R * R => 0 <= snd xv) d -> 0 <= v -> Forall (fun xv => 0 <= snd xv) (add_to d x v).
Proof.
  induction d as [|[x' v'] r IH]; simpl; intros H Hv.
  - constructor; auto.
  - inversion H; subst. simpl in *. destruct (Reqb_spec x x'); constructor; simpl; auto; lra.
Qed.

Lemma pool_nonneg rs ws :
  (forall r, In r rs -> elicited r) -> Forall (fun w => 0 <= w) ws ->
  Forall (fun xv => 0 <= snd xv) (pool rs ws).
Proof.
  intros Hr Hw. unfold pool.
  apply (pool_gen_inv (fun d => Forall (fun xv => 0 <= snd xv) d) (fun v => 0 <= v)).
  - intros; apply add_to_nonneg; auto.
  - intros r w x p Hin Hxp. pose proof (in_combine_l _ _ _ _ Hin). pose proof (in_combine_r _ _ _ _ Hin) as Hw'.
    rewrite Forall_forall in Hw. specialize (Hw w Hw').
    destruct (Hr r H) as [_ [Hp [_ Hc]]]. rewrite Forall_forall in Hp.
    apply in_combine_r in Hxp. specialize (Hp p Hxp).
    apply Rmult_le_pos; [apply Rmult_le_pos; auto|auto].
  - constructor.
Qed.

Lemma contrib_one r : elicited r -> contrib (fun _ => 1) r = 1.
Proof.
  intros [L [_ [S _]]]. unfold contrib. rewrite (Rsum_map_ext _ snd) by (intros; lra).
  rewrite <- S. unfold Rsum. f_equal.
  clear S. revert L. generalize (r_pdf r). induction (r_x r) as [|x xs IH]; intros [|p ps]; simpl; try discriminate; auto.
  intro L. f_equal. apply IH. lia.
Qed.

Lemma over_experts_scale rs ws k f :
  over_experts rs (map (fun x => x / k) ws) f = over_experts rs ws f / k.
Proof.
  unfold over_experts. revert ws. induction rs as [|r rs IH]; intros [|w ws]; simpl; try lra.
  rewrite IH. lra.
Qed.

Lemma over_experts_ext rs ws f g :
  (forall r, In r rs -> f r = g r) -> over_experts rs ws f = over_experts rs ws g.
Proof.
  unfold over_experts. revert ws. induction rs as [|r rs IH]; intros [|w ws] H; simpl; try lra.
  rewrite (H r) by (left; auto). rewrite IH by (intros; apply H; right; auto). reflexivity.
Qed.

Lemma combine_fst_snd (d : list (R * R)) : combine (map fst d) (map snd d) = d.
Proof. induction d as [|[a b] d IH]; simpl; congruence. Qed.

Lemma norm_some w n : Forall (fun x => 0 <= x) w -> 0 < Rsum w ->
  norm_weights (Some w) n = Ok (map (fun x => x / Rsum w) w).
Proof.
  intros H Hs. unfold norm_weights.
  destruct (existsb (fun x => Rltb x 0) w) eqn:E.
  - exfalso. apply existsb_exists in E. destruct E as [x [Hin Hx]].
    rewrite Forall_forall in H. specialize (H x Hin). destruct (Rltb_spec x 0); [lra|discriminate].
  - destruct (Reqb_spec (Rsum w) 0); [lra|reflexivity].
Qed.

Lemma Rsum_repeat a n : Rsum (repeat a n) = INR n * a.
Proof.
  induction n as [|n IH]; [simpl; rewrite Rsum_nil; lra|].
  change (repeat a (S n)) with (a :: repeat a n). rewrite Rsum_cons, IH, S_INR. lra.
Qed.

Lemma norm_none n : (0 < n)%nat -> norm_weights None n = Ok (repeat (1 / INR n) n).
Proof.
  intro H. unfold norm_weights. destruct (Nat.eqb_spec n 0); [lia|].
  assert (0 < INR n) by (apply lt_0_INR; lia).
  rewrite Rsum_repeat. f_equal. rewrite <- (map_id (repeat (1 / INR n) n)) at 2.
  apply map_ext. intro x. field. lra.
Qed.

Lemma norm_some_sum w : 0 < Rsum w -> Rsum (map (fun x => x / Rsum w) w) = 1.
Proof. intro H. rewrite Rsum_map_div, map_id. field. lra. Qed.

(* ---------- sample sizes ---------- *)
Lemma Int_part_bounds x : IZR (Int_part x) <= x /\ x - 1 < IZR (Int_part x).
Proof. destruct (base_Int_part x). lra. Qed.

Lemma n_size_sum N ws :
  Forall (fun w => 0 <= w) ws -> (0 <= N)%Z ->
  IZR (fold_right Z.add 0%Z (n_size N ws)) <= IZR N * Rsum ws /\
  IZR N * Rsum ws - INR (length ws) <= IZR (fold_right Z.add 0%Z (n_size N ws)) /\
  (ws <> [] -> IZR N * Rsum ws - INR (length ws) < IZR (fold_right Z.add 0%Z (n_size N ws))).
Proof.
  intros Hw HN. induction ws as [|w ws IH].
  - simpl. rewrite Rsum_nil. repeat split; try lra. congruence.
  - inversion Hw; subst. destruct (IH H2) as [A [B C]].
    change (n_size N (w :: ws)) with (Int_part (IZR N * w) :: n_size N ws).
    change (fold_right Z.add 0%Z (Int_part (IZR N * w) :: n_size N ws))
      with (Int_part (IZR N * w) + fold_right Z.add 0 (n_size N ws))%Z.
    rewrite plus_IZR, Rsum_cons. change (length (w :: ws)) with (S (length ws)). rewrite S_INR.
    pose proof (Int_part_bounds (IZR N * w)) as [D E].
    repeat split; try lra; intros; lra.
Qed.

Lemma n_size_nonneg N ws : Forall (fun w => 0 <= w) ws -> (0 <= N)%Z -> Forall (fun n => (0 <= n)%Z) (n_size N ws).
Proof.
  intros Hw HN. unfold n_size. apply Forall_forall. intros n Hin. apply in_map_iff in Hin.
  destruct Hin as [w [<- Hin]]. rewrite Forall_forall in Hw. specialize (Hw w Hin).
  pose proof (Int_part_bounds (IZR N * w)) as [D E].
  assert (0 <= IZR N) by (apply IZR_le; lia).
  assert (0 <= IZR N * w) by (apply Rmult_le_pos; auto).
  assert (-1 < IZR (Int_part (IZR N * w))) as L by lra. apply lt_IZR in L. lia.
Qed.

Lemma Int_part_eq x z : IZR z <= x < IZR z + 1 -> Int_part x = z.
Proof.
  intro H. pose proof (Int_part_bounds x) as [A B].
  assert (IZR (Int_part x) < IZR (z + 1)) as C by (rewrite plus_IZR; lra).
  assert (IZR z < IZR (Int_part x + 1)) as D by (rewrite plus_IZR; lra).
  apply lt_IZR in C. apply lt_IZR in D. lia.
Qed.
