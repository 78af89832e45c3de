(** Property theorems for the samplers: C80. *)
From Coq Require Import List Reals Lra Lia Arith.
From Verif Require Import Base XR LawModel LawSpec LawProofs ModModel ModSpec TruncProofs TruncProps CensProps HurdleProps MixModel MixProps RvsModel.
Import ListNotations.
Local Open Scope R_scope.

(* ---------------- specification ---------------- *)
(** The draws follow the law G of the uniform numbers they come from: a draw is at most x exactly when its uniform number is at
    most G(x). *)
Definition follows (G : xr -> R) (draws : list xr) (us : list R) : Prop :=
  Forall2 (fun y u => number y /\ forall x, number x -> (xle y x <-> u <= G x)) draws us.
Definition how_many_below (x : xr) (draws : list xr) : nat := length (filter (fun y => xleb y x) draws).
Definition how_many_up_to (p : R) (us : list R) : nat := length (filter (fun u => Rleb u p) us).

(** So that among any draws the share of those up to x is the share of the uniform numbers up to G(x): for uniform numbers that
    fill the unit interval evenly it is G(x). *)
Theorem C80_share : forall G draws us x, follows G draws us -> number x ->
  length draws = length us /\ how_many_below x draws = how_many_up_to (G x) us.
Proof.
  intros G draws us x H Nx. unfold how_many_below, how_many_up_to. induction H as [|y u draws us [Hy Hu] _ [IH1 IH2]]; cbn; [auto|].
  specialize (Hu x Nx). unfold xle in Hu. split; [congruence|]. destruct (Rleb_spec u (G x)) as [L|L].
  - apply Hu in L. rewrite L. cbn. congruence.
  - destruct (xleb y x); [exfalso; apply L, Hu; reflexivity|exact IH2].
Qed.

(** Truncated: the draws follow the law conditioned on the interval. *)
Theorem C80_truncated : forall d F l u us, truncatable d F l u -> Forall (fun p => 0 < p < 1) us ->
  follows (conditional (kind_of d) F l u) (t_rvs d l u us) us.
Proof.
  intros d F l u us T H. pose proof (C12_truncated_is_conditional d F l u T) as L. unfold t_rvs, follows.
  induction H as [|p us Hp _ IH]; cbn; constructor; [|exact IH]. assert (Hq : 0 < p <= 1) by lra. destruct (l_ppf _ _ L p Hq) as [N P]. split; [exact N|exact P].
Qed.
(** Censored: if the draws of the base follow its law, those of the censored distribution follow that of the clipped variable. *)
Theorem C80_censored : forall F l u draws us, number l -> number u -> xle l u -> Forall (fun p => 0 < p < 1) us ->
  follows F draws us -> follows (clipped F l u) (c_rvs l u draws) us.
Proof.
  intros F l u draws us Nl Nu Hlu Hus H. unfold c_rvs, follows in *. induction H as [|y p draws us [Ny Hy] _ IH]; cbn; constructor.
  - inversion Hus; subst. rewrite np_clip_value by auto. destruct (clip_within y l u Ny Nl Nu Hlu) as [W1 W2]. split; [apply (xle_number _ _ W1)|].
    intros x Nx. unfold clipped. rewrite clip_le by auto. specialize (Hy x Nx).
    destruct (xlt_dec x l) as [A|A]; unfold xlt in A.
    + rewrite A. split; [|intro; exfalso; lra]. intros C. exfalso. apply (xlt_irrefl x). eapply xlt_le_trans; [exact A|].
      destruct C as [[_ C]|C]; [exact C|exact (xle_trans _ _ _ Hlu C)].
    + assert (A' : xltb x l = false) by (destruct (xltb x l); congruence). rewrite A'.
      assert (Hlx : xle l x) by (destruct (xle_cases l x Nl Nx) as [C|C]; [exact C|unfold xlt in C; congruence]).
      destruct (xle_dec u x) as [C|C]; unfold xle in C.
      * rewrite C. split; [lra|]. intros _. right. exact C.
      * assert (C' : xleb u x = false) by (destruct (xleb u x); congruence). rewrite C'. rewrite <- Hy. unfold xle in *. rewrite C'. intuition congruence.
  - apply IH. inversion Hus; assumption.
Qed.

(** Hurdle: the draws follow the law that gives zero the probability 1 - psi (the single number 1 - psi aside, which a continuous
    generator does not return). *)
Theorem C80_hurdle : forall d F psi us, hurdleable d F psi -> 0 < psi -> Forall (fun p => 0 < p < 1 /\ p <> 1 - psi) us ->
  follows (hurdle_law (zero_edge (kind_of d)) psi F) (h_rvs d (Fin psi) us) us.
Proof.
  intros d F psi us H Hpsi Hus. unfold h_rvs, follows. induction Hus as [|p us [Hp Hn] _ IH]; cbn; constructor; [|exact IH].
  assert (Hq : 0 < p <= 1) by lra. destruct (C17_rvs d F psi p H Hpsi Hp Hn) as [Z1 Z2]. split.
  - change (number (m_ppf (hurdle d (Fin psi)) (Fin p))). destruct (Rlt_dec p (1 - psi)) as [A|A].
    + rewrite (Z1 A). discriminate.
    + assert (A' : 1 - psi < p) by lra. apply Z2, xlt_le, xle_number in A'. apply A'.
  - intros x Nx. exact (C17_ppf_inverts d F psi p x H Hpsi Hq Hn Nx).
Qed.
Lemma follows_length G draws us : follows G draws us -> length draws = length us.
Proof. unfold follows. induction 1; cbn; congruence. Qed.
Lemma below_app x a b : how_many_below x (a ++ b) = (how_many_below x a + how_many_below x b)%nat.
Proof. unfold how_many_below. induction a as [|y a IH]; cbn; [reflexivity|]. destruct (xleb y x); cbn; lia. Qed.
(** Mixture: the draws of every component follow its own law, with as many draws as it was chosen. *)
Theorem C80_mixture : forall (draw : nat -> nat -> list xr) (F : nat -> xr -> R) (us : nat -> list R) n choices,
  choices <> [] -> Forall (fun i => (i < n)%nat) choices ->
  (forall i, (i < n)%nat -> length (us i) = length (filter (Nat.eqb i) choices) /\ follows (F i) (draw i (length (us i))) (us i)) ->
  exists out, mix_rvs draw n choices = Ok out /\ length out = length choices /\
    forall x, number x -> how_many_below x out = list_sum (map (fun i => how_many_up_to (F i x) (us i)) (seq 0 n)).
Proof.
  intros draw F us n choices NE Hc H.
  set (draw' := fun i k => if Nat.ltb i n then if Nat.eqb k (length (us i)) then draw i k else repeat NInf k else repeat NInf k).
  assert (Ld : forall i k, length (draw' i k) = k).
  { intros i k. unfold draw'. destruct (Nat.ltb_spec i n); [|apply repeat_length]. destruct (Nat.eqb_spec k (length (us i))) as [->|]; [|apply repeat_length].
    destruct (H i) as [_ Hf]; [assumption|]. exact (follows_length _ _ _ Hf). }
  assert (E : mix_rvs draw n choices = mix_rvs draw' n choices).
  { unfold mix_rvs. cbv zeta. replace (flat_map (fun i => if Nat.eqb (count_idx i choices) 0 then [] else [draw i (count_idx i choices)]) (seq 0 n))
      with (flat_map (fun i => if Nat.eqb (count_idx i choices) 0 then [] else [draw' i (count_idx i choices)]) (seq 0 n)); [reflexivity|].
    assert (G : forall l, (forall i, In i l -> (i < n)%nat) -> flat_map (fun i => if Nat.eqb (count_idx i choices) 0 then [] else [draw' i (count_idx i choices)]) l =
       flat_map (fun i => if Nat.eqb (count_idx i choices) 0 then [] else [draw i (count_idx i choices)]) l).
    { induction l as [|i l IH]; intro Hl; [reflexivity|]. cbn [flat_map]. rewrite IH by (intros j J; apply Hl; right; exact J). f_equal.
      assert (Hi : (i < n)%nat) by (apply Hl; left; reflexivity). unfold draw'. rewrite (proj2 (Nat.ltb_lt i n) Hi). destruct (H i Hi) as [Lu _].
      unfold count_idx. rewrite <- Lu, Nat.eqb_refl. reflexivity. }
    apply G. intros i I. apply in_seq in I. lia. }
  destruct (C19_mixture_sizes draw' n choices NE Hc Ld) as (blocks & out & E1 & E2 & L1 & L2 & B). exists out. rewrite E. split; [exact E1|]. split; [exact L2|].
  intros x Nx. rewrite E2. clear E E1 E2 L2 NE Hc.
  assert (BL : forall i b, nth_error blocks i = Some b -> (i < n)%nat -> how_many_below x b = how_many_up_to (F i x) (us i)).
  { intros i b Hb Hi. destruct (B i b Hb) as [Lb Db]. destruct (H i Hi) as [Lu Hf]. destruct b as [|y b].
    - cbn in Lb. assert (us i = []) as -> by (destruct (us i); [reflexivity|cbn in Lu; congruence]). reflexivity.
    - rewrite Db by discriminate. rewrite Lb, <- Lu. unfold draw'. rewrite (proj2 (Nat.ltb_lt i n) Hi), Nat.eqb_refl. apply (C80_share _ _ _ x Hf Nx). }
  assert (G : forall bs k, (k + length bs <= n)%nat -> (forall i b, nth_error bs i = Some b -> nth_error blocks (k + i) = Some b) ->
    how_many_below x (concat bs) = list_sum (map (fun i => how_many_up_to (F i x) (us i)) (seq k (length bs)))).
  { induction bs as [|b bs IH]; intros k Hk Hb; [reflexivity|]. cbn [concat length seq map list_sum fold_right] in *. rewrite below_app. f_equal.
    - apply BL; [|lia]. specialize (Hb O b eq_refl). rewrite Nat.add_0_r in Hb. exact Hb.
    - apply (IH (S k)); [lia|]. intros i c Hi. specialize (Hb (S i) c Hi). rewrite <- Nat.add_succ_comm in Hb. exact Hb. }
  rewrite (G blocks O); [rewrite L1; reflexivity|lia|auto].
Qed.

(* ---------------- examples ---------------- *)
Example C80_applies : truncatable (die 6) (die_F 6) (Fin 2) (Fin 4) /\ follows (conditional Discrete (die_F 6) (Fin 2) (Fin 4)) (t_rvs (die 6) (Fin 2) (Fin 4) [1 / 2; 1 / 10; 9 / 10]) [1 / 2; 1 / 10; 9 / 10] /\
  hurdleable (die 4) (die_F 4) (3 / 5) /\ follows (hurdle_law 0 (3 / 5) (die_F 4)) (h_rvs (die 4) (Fin (3 / 5)) [1 / 2; 1 / 10]) [1 / 2; 1 / 10].
Proof.
  destruct C12_example as [T _]. destruct C17_example as [H _]. split; [exact T|]. split.
  - apply (C80_truncated (die 6) (die_F 6) (Fin 2) (Fin 4) _ T). repeat constructor; lra.
  - split; [exact H|]. apply (C80_hurdle (die 4) (die_F 4) (3 / 5) _ H); [lra|]. repeat constructor; lra.
Qed.
Example C80_mixture_applies : let us := fun i : nat => match i with O => [1 / 2] | _ => [1 / 10; 9 / 10] end in
  let draw := fun i k => map (fun u => m_ppf unif (Fin u)) (us i) in
  (forall i, (i < 2)%nat -> length (us i) = length (filter (Nat.eqb i) [1; 0; 1]%nat) /\ follows unif_F (draw i (length (us i))) (us i)).
Proof.
  intros us draw i Hi. assert (G : forall l, Forall (fun u => 0 < u < 1) l -> follows unif_F (map (fun u => m_ppf unif (Fin u)) l) l).
  { induction 1 as [|u l Hu _ IH]; cbn; constructor; [|exact IH]. apply (l_ppf _ _ unif_lawful). lra. }
  destruct i as [|[|i]]; [| |lia]; (split; [reflexivity|]); apply G; repeat constructor; lra.
Qed.

Print Assumptions C80_share.
Print Assumptions C80_truncated.
Print Assumptions C80_censored.
Print Assumptions C80_hurdle.
Print Assumptions C80_mixture.
