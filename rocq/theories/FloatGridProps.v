(** C91: grids, integrals over them and variances in double precision. *)
From Coq Require Import List Bool Reals ZArith Arith Lra Lia Psatz Permutation.
From Flocq Require Import Core Plus_error Relative.
From Verif Require Import XR LawModel FloatModel FloatProofs FloatProps FloatConvModel FloatConvProps FloatGridModel.
Import ListNotations.
Open Scope R_scope.
Local Notation u := FloatConvProps.u.

(* ------------------------------------------------------------ specification *)
(** The ends of a grid: doubles, equal or not absurdly close to each other. *)
Definition good_ends (a b : R) : Prop := double a /\ double b /\ (a = b \/ a + bpow radix2 (-900) <= b).
(** The place the entry number [i] of [n] would have without rounding. *)
Definition even_place (a b : R) (n i : nat) : R := a + INR i * (b - a) / INR (n - 1).

(* ------------------------------------------------------------ grids *)
Lemma delta_rel a b : double a -> double b -> a <= b -> rel 1 (b - a) (fsub b a).
Proof.
  intros A B H. unfold fsub. replace (b - a) with (b + - a) by ring. apply rel_fadd; [apply rel_refl; lra|exact B|apply double_opp, A].
Qed.
Lemma bpow_40 : bpow radix2 40 = 1099511627776. Proof. reflexivity. Qed.
Lemma inr_range n : (2 <= n <= 2 ^ 40)%nat -> 1 <= INR (n - 1) <= bpow radix2 40.
Proof.
  intros [H1 H2]. split.
  - change 1 with (INR 1). apply le_INR. lia.
  - apply Rle_trans with (INR (2 ^ 40)); [apply le_INR; lia|]. rewrite pow_INR. replace (INR 2) with 2 by (cbn; lra). rewrite bpow_40. lra.
Qed.
Lemma step_rel a b n : double a -> double b -> a + bpow radix2 (-900) <= b -> (2 <= n <= 2 ^ 40)%nat ->
  rel 2 ((b - a) / INR (n - 1)) (fdiv (fsub b a) (INR (n - 1))) /\ bpow radix2 (-940) <= (b - a) / INR (n - 1).
Proof.
  intros A B H N. pose proof (inr_range n N) as D. pose proof (bpow_gt_0 radix2 (-900)) as P.
  assert (L : bpow radix2 (-940) <= (b - a) / INR (n - 1)).
  { apply Rmult_le_reg_r with (INR (n - 1)); [lra|]. unfold Rdiv. rewrite Rmult_assoc, Rinv_l, Rmult_1_r by lra.
    apply Rle_trans with (bpow radix2 (-940) * bpow radix2 40); [apply Rmult_le_compat_l; [apply bpow_ge_0|lra]|].
    rewrite <- bpow_plus. change (-940 + 40)%Z with (-900)%Z. lra. }
  split; [|exact L]. unfold fdiv. apply rel_rnd; [lia| |].
  - apply (rel_div 1 0); [lra|apply delta_rel; [exact A|exact B|lra]|apply rel_refl; lra].
  - apply Rle_trans with (2 := L). apply bpow_le. lia.
Qed.
Lemma step_pos a b n : double a -> double b -> a + bpow radix2 (-900) <= b -> (2 <= n <= 2 ^ 40)%nat ->
  0 < fdiv (fsub b a) (INR (n - 1)).
Proof.
  intros A B H N. destruct (step_rel a b n A B H N) as [S L]. apply (rel_spos _ _ _ S).
  apply Rlt_le_trans with (2 := L). apply bpow_gt_0.
Qed.
Lemma inner a b n i : double a -> double b -> a + bpow radix2 (-900) <= b -> (2 <= n <= 2 ^ 40)%nat -> (i < n - 1)%nat ->
  f_linspace a b n i = fadd (fmul (INR i) (fdiv (fsub b a) (INR (n - 1)))) a.
Proof.
  intros A B H N I. unfold f_linspace. replace (Nat.eqb i (n - 1)) with false by (symmetry; apply Nat.eqb_neq; lia).
  pose proof (step_pos a b n A B H N). unfold Reqb. destruct (Req_EM_T _ 0); [lra|reflexivity].
Qed.
Lemma offset_rel a b n i : double a -> double b -> a + bpow radix2 (-900) <= b -> (2 <= n <= 2 ^ 40)%nat -> (i < n - 1)%nat ->
  rel 3 (INR i * (b - a) / INR (n - 1)) (fmul (INR i) (fdiv (fsub b a) (INR (n - 1)))).
Proof.
  intros A B H N I. destruct (step_rel a b n A B H N) as [S L]. destruct i as [|i].
  - cbn [INR]. unfold fmul, Rdiv. rewrite !Rmult_0_l, rnd_0. split; [lra|split; lra].
  - unfold fmul. assert (P : 1 <= INR (Datatypes.S i)) by (change 1 with (INR 1); apply le_INR; lia).
    replace (INR (Datatypes.S i) * (b - a) / INR (n - 1)) with (INR (Datatypes.S i) * ((b - a) / INR (n - 1))) by (unfold Rdiv; ring).
    assert (0 <= bpow radix2 (-940)) by apply bpow_ge_0.
    apply rel_rnd; [lia|apply (rel_mul 0 2); [apply rel_refl; lra|exact S]|].
    apply Rle_trans with (bpow radix2 (-940)); [apply bpow_le; lia|]. nra.
Qed.
Lemma offset_le a b n i : double a -> double b -> a + bpow radix2 (-900) <= b -> (2 <= n <= 2 ^ 40)%nat -> (i < n - 1)%nat ->
  0 <= fmul (INR i) (fdiv (fsub b a) (INR (n - 1))) <= b - a.
Proof.
  intros A B H N I. pose proof (offset_rel a b n i A B H N I) as R. split; [apply (rel_pos _ _ _ R)|].
  destruct R as (_ & _ & R). eapply Rle_trans; [exact R|].
  pose proof (inr_range n N) as D. pose proof (bpow_gt_0 radix2 (-900)) as P. pose proof (q_pos 3) as Q. pose proof (q_bernoulli 3) as QB.
  apply Rmult_le_reg_r with ((1 - u) ^ 3); [exact Q|]. rewrite Rmult_assoc, Rinv_l, Rmult_1_r by lra.
  apply Rmult_le_reg_r with (INR (n - 1)); [lra|]. unfold Rdiv. rewrite Rmult_assoc, Rinv_l, Rmult_1_r by lra.
  assert (J : INR i + 1 <= INR (n - 1)) by (rewrite <- S_INR; apply le_INR; lia).
  replace ((b - a) * (1 - u) ^ 3 * INR (n - 1)) with (((1 - u) ^ 3 * INR (n - 1)) * (b - a)) by ring.
  apply Rmult_le_compat_r; [lra|].
  assert (K : 3 * u * INR (n - 1) <= 1).
  { rewrite bpow_40 in D. rewrite u_is. lra. }
  replace (INR 3) with 3 in QB by (cbn; lra).
  apply Rle_trans with ((1 - 3 * u) * INR (n - 1)); [lra|]. apply Rmult_le_compat_r; lra.
Qed.

(** A grid starts and ends at the ends asked for; its entries do not decrease and none is outside. *)
Theorem C91_grid a b n : good_ends a b -> (2 <= n <= 2 ^ 40)%nat ->
  f_linspace a b n 0 = a /\ f_linspace a b n (n - 1) = b /\
  (forall i j, (i <= j < n)%nat -> f_linspace a b n i <= f_linspace a b n j) /\
  (forall i, (i < n)%nat -> double (f_linspace a b n i) /\ a <= f_linspace a b n i <= b).
Proof.
  intros (A & B & H) N.
  assert (L : f_linspace a b n (n - 1) = b) by (unfold f_linspace; now rewrite Nat.eqb_refl).
  assert (DB : forall i, double (f_linspace a b n i)) by (intro i; unfold f_linspace; destruct (Nat.eqb _ _); [exact B|apply fadd_double]).
  destruct H as [<- | H].
  { assert (E : forall i, f_linspace a a n i = a).
    { intro i. unfold f_linspace. destruct (Nat.eqb _ _); [reflexivity|]. unfold fsub. replace (a - a) with 0 by ring. rewrite rnd_0.
      unfold fdiv at 1. unfold Rdiv at 1. rewrite Rmult_0_l, rnd_0. unfold Reqb. destruct (Req_EM_T 0 0) as [_|Q]; [|easy].
      unfold fmul. rewrite Rmult_0_r, rnd_0. unfold fadd. rewrite Rplus_0_l. apply rnd_id, A. }
    split; [apply E|split; [apply E|split]]; intros; rewrite !E; [lra|split; [exact A|lra]]. }
  pose proof (bpow_gt_0 radix2 (-900)) as P.
  assert (W : forall i, (i < n - 1)%nat -> a <= f_linspace a b n i <= b).
  { intros i I. rewrite (inner a b n i A B H N I). pose proof (offset_le a b n i A B H N I) as O.
    split; [apply rnd_ge; [exact A|lra]|apply rnd_upper; [exact B|lra]]. }
  assert (W' : forall i, (i < n)%nat -> a <= f_linspace a b n i <= b).
  { intros i I. destruct (Nat.eq_dec i (n - 1)) as [-> | K]; [rewrite L; lra|apply W; lia]. }
  split; [|split; [exact L|split]].
  - rewrite (inner a b n 0 A B H N) by lia. cbn [INR]. unfold fmul. rewrite Rmult_0_l, rnd_0. unfold fadd. rewrite Rplus_0_l. apply rnd_id, A.
  - intros i j [IJ J]. destruct (Nat.eq_dec j (n - 1)) as [-> | K]; [rewrite L; apply W'; lia|].
    rewrite (inner a b n i A B H N), (inner a b n j A B H N) by lia. apply rnd_le, Rplus_le_compat_r, rnd_le.
    apply Rmult_le_compat_r; [left; apply (step_pos a b n A B H N)|apply le_INR, IJ].
  - intros i I. split; [apply DB|apply W', I].
Qed.

(** Each entry is close to its place: within 4 units of 2^-53 of the width and half a unit of the last digit. *)
Theorem C91_grid_places a b n i e : good_ends a b -> (2 <= n <= 2 ^ 40)%nat -> (i < n)%nat ->
  (-1021 <= e)%Z -> Rabs a <= bpow radix2 e -> Rabs b <= bpow radix2 e ->
  Rabs (f_linspace a b n i - even_place a b n i) <= 4 * bpow radix2 (-53) * (b - a) + bpow radix2 (e - 54).
Proof.
  intros G N I E HA HB. destruct (C91_grid a b n G N) as (_ & L & _ & W). destruct G as (A & B & G).
  pose proof (inr_range n N) as D. pose proof (bpow_ge_0 radix2 (e - 54)) as P1. pose proof (bpow_gt_0 radix2 (-53)) as P2.
  assert (AB : a <= b) by (destruct (W i I) as [_ ?]; lra).
  assert (RHS : 0 <= 4 * bpow radix2 (-53) * (b - a)) by (apply Rmult_le_pos; lra).
  destruct (Nat.eq_dec i (n - 1)) as [-> | K].
  { rewrite L. unfold even_place. replace (b - (a + INR (n - 1) * (b - a) / INR (n - 1))) with 0 by (field; lra). rewrite Rabs_R0. lra. }
  destruct G as [<- | H].
  { destruct (W i I) as [_ [? ?]]. unfold even_place. replace (f_linspace a a n i) with a by lra.
    replace (a - (a + INR i * (a - a) / INR (n - 1))) with 0 by (field; lra). rewrite Rabs_R0. lra. }
  assert (I' : (i < n - 1)%nat) by lia. rewrite (inner a b n i A B H N I').
  pose proof (offset_rel a b n i A B H N I') as R. pose proof (offset_le a b n i A B H N I') as O.
  set (y := fmul _ _) in *. set (x := INR i * (b - a) / INR (n - 1)) in *.
  assert (X : 0 <= x <= b - a).
  { destruct R as [X _]. split; [exact X|]. unfold x. apply Rmult_le_reg_r with (INR (n - 1)); [lra|]. unfold Rdiv.
    rewrite Rmult_assoc, Rinv_l, Rmult_1_r by lra. rewrite Rmult_comm. apply Rmult_le_compat_l; [lra|apply le_INR; lia]. }
  assert (Y : Rabs (y - x) <= 7 / 2 * bpow radix2 (-53) * (b - a)).
  { apply (rel_within 3 (7 / 2)) in R; [|lia|cbn; lra]. eapply Rle_trans; [exact R|]. apply Rmult_le_compat_l; lra. }
  assert (F : Rabs (fadd y a - (y + a)) <= bpow radix2 (e - 54)).
  { unfold fadd. apply rnd_err; [lia|]. apply Rabs_le. apply Rabs_le_inv in HA, HB. lra. }
  unfold even_place. fold x. replace (fadd y a - (a + x)) with ((fadd y a - (y + a)) + (y - x)) by ring.
  eapply Rle_trans; [apply Rabs_triang|]. assert (0 <= bpow radix2 (-53) * (b - a)) by (apply Rmult_le_pos; lra). lra.
Qed.

(** Entries can coincide: the grid of 1000 values from 1 to the next double has its first two values equal, so widths of 0. *)
Theorem C91_grid_ties_refuted :
  let a := 1 in let b := 1 + bpow radix2 (-52) in
  good_ends a b /\ a < b /\ f_linspace a b 1000 0 = f_linspace a b 1000 1.
Proof.
  cbn zeta.
  assert (B : double (1 + bpow radix2 (-52))).
  { replace (1 + bpow radix2 (-52)) with (rnd (4503599627370497 * / 4503599627370496)).
    - apply rnd_double.
    - rewrite (rnd_is (-52) 4503599627370497) by (cbn; first [lia | split; lra | apply Rabs_def1; lra]). cbn. lra. }
  assert (P : bpow radix2 (-900) <= bpow radix2 (-52)) by (apply bpow_le; lia).
  pose proof (bpow_gt_0 radix2 (-52)) as P0.
  assert (G : good_ends 1 (1 + bpow radix2 (-52))) by (split; [exact double_1|split; [exact B|right; lra]]).
  split; [exact G|split; [lra|]].
  assert (N : (2 <= 1000 <= 2 ^ 40)%nat).
  { split; [lia|]. apply Nat.le_trans with (2 ^ 10)%nat; [apply Nat.leb_le; reflexivity|apply Nat.pow_le_mono_r; lia]. }
  destruct (C91_grid _ _ _ G N) as (Z & _ & M & W). rewrite Z.
  assert (LT : (1 < 1000 - 1)%nat) by (apply Nat.ltb_lt; reflexivity).
  rewrite (inner 1 (1 + bpow radix2 (-52)) 1000 1 double_1 B ltac:(lra) N LT).
  assert (D : fsub (1 + bpow radix2 (-52)) 1 = bpow radix2 (-52)).
  { unfold fsub. replace (1 + bpow radix2 (-52) - 1) with (bpow radix2 (-52)) by ring. apply rnd_id, double_bpow. lia. }
  rewrite D. replace (INR 1) with 1 by reflexivity. unfold fmul. rewrite Rmult_1_l.
  assert (I : 2 <= INR (1000 - 1)) by (replace 2 with (INR 2) by (cbn; lra); apply le_INR; lia).
  assert (Q : 0 <= fdiv (bpow radix2 (-52)) (INR (1000 - 1)) <= bpow radix2 (-53)).
  { assert (X : 0 <= bpow radix2 (-52) / INR (1000 - 1) <= bpow radix2 (-53)).
    { split; [apply Rmult_le_pos; [lra|left; apply Rinv_0_lt_compat; lra]|].
      apply Rmult_le_reg_r with (INR (1000 - 1)); [lra|]. unfold Rdiv. rewrite Rmult_assoc, Rinv_l, Rmult_1_r by lra.
      replace (bpow radix2 (-52)) with (bpow radix2 (-53) * 2) by (cbn; lra). apply Rmult_le_compat_l; [apply bpow_ge_0|exact I]. }
    split; [apply rnd_pos, X|apply rnd_upper; [apply double_bpow; lia|apply X]]. }
  rewrite (rnd_id (fdiv _ _)) by apply fdiv_double. unfold fadd. apply Rle_antisym.
  - apply rnd_ge; [exact double_1|lra].
  - apply rnd_near_1. lra.
Qed.

(* ------------------------------------------------------------ integrals *)
Lemma trapezoid_pos t y x : (forall i, In i (entries t) -> x i <= x (S i)) -> (forall i, In i (entries t) -> 0 <= y i /\ 0 <= y (S i)) ->
  0 <= f_trapezoid t y x.
Proof.
  intros X Y. apply fsum_pos. intros i I. specialize (X i I). destruct (Y i I) as [Y0 Y1].
  unfold fdiv, fmul. apply rnd_pos. apply Rmult_le_pos; [|lra]. apply rnd_pos, Rmult_le_pos; apply rnd_pos; lra.
Qed.
Lemma square_pos a : 0 <= fsquare a. Proof. apply rnd_pos, Rle_0_sqr. Qed.
(** The variance of a Truncated or Hurdle distribution, continuous or discrete, is never negative, whatever mean it is
    computed around and in whatever order the terms are added, so that its standard deviation is a number; and the mean of
    one on the positive numbers is not negative. [n] values, with numbers 0 to n - 1. *)
Theorem C91_variance n t t' x pdf mean : covers t (n - 1) -> covers t' n ->
  (forall i, (S i < n)%nat -> x i <= x (S i)) -> (forall i, (i < n)%nat -> 0 <= pdf i) ->
  0 <= f_var t x pdf mean /\ 0 <= f_var_discrete t' x pdf mean /\
  f_std (f_var t x pdf mean) <> NaN /\ f_std (f_var_discrete t' x pdf mean) <> NaN /\
  ((forall i, (i < n)%nat -> 0 <= x i) -> 0 <= f_mean t x pdf /\ 0 <= f_mean_discrete t' x pdf).
Proof.
  intros C C' X P.
  assert (V : 0 <= f_var t x pdf mean).
  { apply trapezoid_pos; intros i I; apply (covers_in _ _ _ C) in I; [apply X; lia|].
    split; apply rnd_pos, Rmult_le_pos; try apply square_pos; apply P; lia. }
  assert (V' : 0 <= f_var_discrete t' x pdf mean).
  { apply fsum_pos. intros i I. apply (covers_in _ _ _ C') in I. apply rnd_pos, Rmult_le_pos; [apply square_pos|apply P, I]. }
  assert (S : forall v, 0 <= v -> f_std v <> NaN) by (intros v H; unfold f_std, Rltb; destruct (Rlt_dec v 0); [lra|discriminate]).
  split; [exact V|split; [exact V'|split; [apply S, V|split; [apply S, V'|]]]]. intro Z. split.
  - apply trapezoid_pos; intros i I; apply (covers_in _ _ _ C) in I; [apply X; lia|].
    split; apply rnd_pos, Rmult_le_pos; first [apply Z; lia | apply P; lia].
  - apply fsum_pos. intros i I. apply (covers_in _ _ _ C') in I. apply rnd_pos, Rmult_le_pos; [apply Z, I|apply P, I].
Qed.
(** On the grid of xvals: the same, with the grid's own entries. *)
Theorem C91_variance_on_grid a b n t pdf mean : good_ends a b -> (2 <= n <= 2 ^ 40)%nat -> covers t (n - 1) ->
  (forall i, (i < n)%nat -> 0 <= pdf i) ->
  0 <= f_var t (f_linspace a b n) pdf mean /\ (0 <= a -> 0 <= f_mean t (f_linspace a b n) pdf).
Proof.
  intros G N C P. destruct (C91_grid a b n G N) as (_ & _ & M & W).
  destruct (C91_variance n t (left_to_right (n - 1)) (f_linspace a b n) pdf mean C) as (V & _ & _ & _ & Z).
  - unfold covers. replace n with (S (n - 1)) at 2 by lia. set (k := (n - 1)%nat). clearbody k. clear.
    induction k as [|k IH]; [reflexivity|]. cbn [left_to_right entries]. rewrite seq_S. apply Permutation_app; [exact IH|reflexivity].
  - intros i I. apply M. lia.
  - exact P.
  - split; [exact V|]. intro A. apply Z. intros i I. destruct (W i I) as [_ [? _]]. lra.
Qed.

(* ------------------------------------------------------------ how close the integrals are *)
(** Zero, or not so small that products of a few such numbers lose digits. *)
Definition zero_or_more (x : R) : Prop := x = 0 \/ bpow radix2 (-200) <= x.
(** The sum of the trapezoids, without rounding. *)
Definition trapezoids (n : nat) (y x : nat -> R) : R := xsum (seq 0 (n - 1)) (fun i => (x (S i) - x i) * (y (S i) + y i) / 2).

Definition zom (e : Z) (x : R) : Prop := x = 0 \/ bpow radix2 (- e) <= x.
Lemma zom_pos e x : zom e x -> 0 <= x.
Proof. intros [-> | H]; [lra|]. apply Rle_trans with (2 := H). apply bpow_ge_0. Qed.
Lemma zom_mul e f x y : zom e x -> zom f y -> zom (e + f) (x * y).
Proof.
  intros [-> | H] G; [left; ring|]. destruct G as [-> | G]; [left; ring|right].
  replace (- (e + f))%Z with (- e + - f)%Z by lia. rewrite bpow_plus. apply Rmult_le_compat; try apply bpow_ge_0; assumption.
Qed.
Lemma zom_add e x y : zom e x -> zom e y -> zom e (x + y).
Proof.
  intros H G. pose proof (zom_pos _ _ H). pose proof (zom_pos _ _ G). destruct H as [-> | H]; [now rewrite Rplus_0_l|]. right. lra.
Qed.
Lemma rel_rnd0 n e x y : (n <= 30)%nat -> rel n x y -> zom e x -> (e <= 1000)%Z -> rel (S n) x (rnd y).
Proof.
  intros N H Z E. destruct Z as [-> | Z].
  - destruct H as (_ & A & B). rewrite Rmult_0_l in A, B. replace y with 0 by lra. rewrite rnd_0. split; [lra|split; lra].
  - apply rel_rnd; [exact N|exact H|]. apply Rle_trans with (2 := Z). apply bpow_le. lia.
Qed.
Lemma fsum_relk k t e v : (forall i, In i (entries t) -> rel k (e i) (v i) /\ double (v i)) ->
  rel (k + (length (entries t) - 1)) (xsum (entries t) e) (fsum t v).
Proof.
  induction t as [j|a IHa b IHb]; intro H.
  - cbn. replace (k + 0)%nat with k by lia. unfold xsum. cbn. rewrite Rplus_0_r. apply H. left. reflexivity.
  - cbn [entries fsum] in *. rewrite app_length, xsum_app.
    assert (Ha : forall i, In i (entries a) -> rel k (e i) (v i) /\ double (v i)) by (intros; apply H, in_or_app; left; assumption).
    assert (Hb : forall i, In i (entries b) -> rel k (e i) (v i) /\ double (v i)) by (intros; apply H, in_or_app; right; assumption).
    pose proof (entries_len a) as La. pose proof (entries_len b) as Lb.
    set (la := length (entries a)) in *. set (lb := length (entries b)) in *.
    replace (k + (la + lb - 1))%nat with (S (k + (la + lb - 2))) by lia.
    apply rel_fadd; [|apply fsum_double; intros; apply Ha; assumption|apply fsum_double; intros; apply Hb; assumption].
    apply rel_add; [apply rel_weak with (2 := IHa Ha); lia|apply rel_weak with (2 := IHb Hb); lia].
Qed.
Lemma rel_many n x y : (n <= 2 ^ 30)%nat -> rel n x y -> Rabs (y - x) <= INR n * bpow radix2 (-52) * x.
Proof.
  intros N (X & A & B). pose proof u_small as U. pose proof (q_bernoulli n) as Q. pose proof (q_pos n) as QP.
  replace (bpow radix2 (-52)) with (2 * u) by (rewrite u_is; cbn; lra).
  assert (IN : 0 <= INR n <= 1073741824).
  { split; [apply pos_INR|]. apply Rle_trans with (INR (2 ^ 30)); [apply le_INR, N|]. rewrite pow_INR. replace (INR 2) with 2 by (cbn; lra). lra. }
  assert (NU : 0 <= INR n * u <= / 4) by (split; [apply Rmult_le_pos; lra|rewrite u_is; lra]).
  assert (I : / (1 - u) ^ n <= 1 + 2 * (INR n * u)).
  { apply Rle_trans with (/ (1 - INR n * u)); [apply Rinv_le_contravar; lra|].
    apply Rmult_le_reg_r with (1 - INR n * u); [lra|]. rewrite Rinv_l by lra. nra. }
  assert (x * / (1 - u) ^ n <= x * (1 + 2 * (INR n * u))) by (apply Rmult_le_compat_l; assumption).
  assert (x * (1 - INR n * u) <= x * (1 - u) ^ n) by (apply Rmult_le_compat_l; assumption).
  assert (0 <= x * (INR n * u)) by (apply Rmult_le_pos; lra).
  apply Rabs_le. split; lra.
Qed.
Lemma trapezoid_rel n t x y ey k : covers t (n - 1) -> (2 <= n)%nat -> (k <= 20)%nat ->
  (forall i, (i < n)%nat -> double (x i) /\ double (y i) /\ rel k (ey i) (y i) /\ zom 600 (ey i)) ->
  (forall i, (S i < n)%nat -> zero_or_more (x (S i) - x i)) ->
  rel (k + n + 2) (trapezoids n ey x) (f_trapezoid t y x).
Proof.
  intros C N K H W. unfold trapezoids. rewrite <- (xsum_perm _ _ _ C). unfold f_trapezoid.
  assert (L : length (entries t) = (n - 1)%nat) by (rewrite (Permutation_length C), seq_length; reflexivity).
  replace (k + n + 2)%nat with ((k + 4) + (length (entries t) - 1))%nat by lia. apply fsum_relk. intros i I.
  split; [|apply fdiv_double]. apply (covers_in _ _ _ C) in I. assert (I' : (S i < n)%nat) by lia.
  destruct (H i ltac:(lia)) as (X0 & Y0 & R0 & Z0). destruct (H (S i) I') as (X1 & Y1 & R1 & Z1). specialize (W i I').
  assert (WP : x i <= x (S i)) by (apply (zom_pos 200) in W; lra).
  pose proof (delta_rel _ _ X0 X1 WP) as D.
  assert (HS : rel (S k) (ey (S i) + ey i) (fadd (y (S i)) (y i))) by (apply rel_fadd; [apply rel_add; assumption|assumption|assumption]).
  assert (P : rel (S (1 + S k)) ((x (S i) - x i) * (ey (S i) + ey i)) (fmul (fsub (x (S i)) (x i)) (fadd (y (S i)) (y i)))).
  { apply rel_rnd0 with (e := (200 + 600)%Z); [lia|apply rel_mul; assumption| |lia]. apply zom_mul; [exact W|]. now apply zom_add. }
  unfold fdiv. replace (k + 4)%nat with (S (S (1 + S k) + 0)) by lia.
  apply rel_rnd0 with (e := (200 + 600 + 1)%Z); [lia| |  |lia].
  - apply rel_div; [lra|exact P|apply rel_refl; lra].
  - unfold Rdiv. apply zom_mul; [apply zom_mul; [exact W|now apply zom_add]|right; cbn; lra].
Qed.
Lemma fsquare_sub_rel x m : double x -> double m -> zero_or_more (Rabs (x - m)) -> rel 3 ((x - m) * (x - m)) (fsquare (fsub x m)).
Proof.
  intros X M Z. unfold fsquare.
  assert (R : rel 2 ((x - m) * (x - m)) (fsub x m * fsub x m)).
  { destruct (Rle_or_lt m x) as [H|H].
    - pose proof (delta_rel m x M X H) as D. apply (rel_mul 1 1); exact D.
    - pose proof (delta_rel x m X M (Rlt_le _ _ H)) as D.
      replace ((x - m) * (x - m)) with ((m - x) * (m - x)) by ring.
      replace (fsub x m) with (- fsub m x).
      + replace (- fsub m x * - fsub m x) with (fsub m x * fsub m x) by ring. apply (rel_mul 1 1); exact D.
      + unfold fsub. replace (x - m) with (- (m - x)) by ring. unfold rnd. now rewrite round_NE_opp. }
  apply rel_rnd0 with (e := (200 + 200)%Z); [lia|exact R| |lia].
  assert (E : (x - m) * (x - m) = Rabs (x - m) * Rabs (x - m)) by (rewrite <- Rabs_mult; symmetry; apply Rabs_pos_eq, Rle_0_sqr).
  rewrite E. apply zom_mul; exact Z.
Qed.
(** The mean (of a distribution on the positive numbers) and the variance computed over a grid are the sums of the
    trapezoids, up to a relative error of n + 3 and n + 6 units of 2^-52, in whatever order the terms are added. *)
Theorem C91_integrals n t x pdf mean : covers t (n - 1) -> (2 <= n <= 2 ^ 20)%nat -> double mean ->
  (forall i, (i < n)%nat -> double (x i) /\ double (pdf i) /\ zero_or_more (pdf i) /\ zero_or_more (Rabs (x i - mean))) ->
  (forall i, (S i < n)%nat -> zero_or_more (x (S i) - x i)) ->
  (let exact := trapezoids n (fun i => (x i - mean) * (x i - mean) * pdf i) x in
   Rabs (f_var t x pdf mean - exact) <= (INR n + 6) * bpow radix2 (-52) * exact) /\
  ((forall i, (i < n)%nat -> zero_or_more (x i)) ->
   let exact := trapezoids n (fun i => x i * pdf i) x in
   Rabs (f_mean t x pdf - exact) <= (INR n + 3) * bpow radix2 (-52) * exact).
Proof.
  intros C [N1 N2] M H W.
  assert (BIG : (n + 6 <= 2 ^ 30)%nat).
  { apply Nat.le_trans with (2 ^ 20 + 6)%nat; [lia|]. apply Nat.le_trans with (2 ^ 20 + 2 ^ 20)%nat.
    - apply Nat.add_le_mono_l. apply Nat.le_trans with (2 ^ 3)%nat; [cbn; lia|apply Nat.pow_le_mono_r; lia].
    - apply Nat.le_trans with (2 ^ 21)%nat; [cbn [Nat.pow]; lia|apply Nat.pow_le_mono_r; lia]. }
  assert (V : rel (n + 6) (trapezoids n (fun i => (x i - mean) * (x i - mean) * pdf i) x) (f_var t x pdf mean)).
  { replace (n + 6)%nat with (4 + n + 2)%nat by lia. apply trapezoid_rel; [exact C|exact N1|lia| |exact W].
    intros i I. destruct (H i I) as (X & P & ZP & ZX).
    assert (ZS : zom 400 ((x i - mean) * (x i - mean))).
    { replace ((x i - mean) * (x i - mean)) with (Rabs (x i - mean) * Rabs (x i - mean)) by (rewrite <- Rabs_mult; apply Rabs_pos_eq, Rle_0_sqr).
      apply (zom_mul 200 200); exact ZX. }
    split; [exact X|split; [apply fmul_double|split]].
    - apply rel_rnd0 with (e := (400 + 200)%Z); [lia| |apply zom_mul; assumption|lia].
      apply (rel_mul 3 0); [apply fsquare_sub_rel; assumption|apply rel_refl, (zom_pos 200), ZP].
    - apply (zom_mul 400 200); assumption. }
  split.
  - replace (INR n + 6) with (INR (n + 6)) by (rewrite plus_INR; cbn; lra). apply rel_many; assumption.
  - intro ZX. replace (INR n + 3) with (INR (n + 3)) by (rewrite plus_INR; cbn; lra). apply rel_many; [lia|].
    replace (n + 3)%nat with (1 + n + 2)%nat by lia. apply trapezoid_rel; [exact C|exact N1|lia| |exact W].
    intros i I. destruct (H i I) as (X & P & ZP & _). specialize (ZX i I).
    assert (Z4 : zom 400 (x i * pdf i)) by (apply (zom_mul 200 200); assumption).
    split; [exact X|split; [apply fmul_double|split]].
    + apply rel_rnd0 with (e := 400%Z); [lia| |exact Z4|lia].
      apply (rel_mul 0 0); apply rel_refl; [apply (zom_pos 200), ZX|apply (zom_pos 200), ZP].
    + destruct Z4 as [-> | Z4]; [left; reflexivity|right]. apply Rle_trans with (2 := Z4). apply bpow_le. lia.
Qed.

Lemma big_enough n k j : (n <= 2 ^ 20)%nat -> (k <= 1000)%nat -> (j <= 1024)%nat -> (k * n + j <= 2 ^ 30)%nat.
Proof.
  intros N K J. replace (2 ^ 30)%nat with (2 ^ 10 * 2 ^ 20)%nat by (rewrite <- Nat.pow_add_r; reflexivity).
  assert (P : (2 ^ 10 <= 2 ^ 20)%nat) by (apply Nat.pow_le_mono_r; lia). replace (2 ^ 10)%nat with 1024%nat in * by reflexivity.
  revert N P. generalize (2 ^ 20)%nat. intros m N P. nia.
Qed.
Lemma two_pow_30 n : (n <= 2 ^ 30)%nat -> 0 <= INR n <= 1073741824.
Proof.
  intro N. split; [apply pos_INR|]. apply Rle_trans with (INR (2 ^ 30)); [apply le_INR, N|]. rewrite pow_INR. replace (INR 2) with 2 by (cbn; lra). lra.
Qed.
#[local] Instance prec53 : Prec_gt_0 53. Proof. reflexivity. Qed.
Lemma sub_err a b : double a -> double b -> b <= a -> Rabs (fsub a b - (a - b)) <= u * Rabs (a - b).
Proof.
  intros A B H. unfold fsub. replace (a - b) with (a + - b) by ring.
  destruct (FLT_plus_error_N_ex radix2 (-1074) 53 (fun x => negb (Z.even x)) a (- b) A (double_opp _ B)) as (e & E & EQ).
  unfold rnd. rewrite EQ. replace ((a + - b) * (1 + e) - (a + - b)) with (e * (a + - b)) by ring. rewrite Rabs_mult.
  apply Rmult_le_compat_r; [apply Rabs_pos|]. eapply Rle_trans; [exact E|].
  assert (UU : u_ro radix2 53 = u) by (rewrite u_is; unfold u_ro; cbn; lra). rewrite UU. pose proof u_small as U.
  apply Rmult_le_reg_r with (1 + u); [lra|]. unfold Rdiv. rewrite Rmult_assoc, Rinv_l by lra. nra.
Qed.
(** The same for discrete distributions, where the terms are summed. *)
Theorem C91_sums n t x pdf mean : covers t n -> (1 <= n <= 2 ^ 20)%nat -> double mean ->
  (forall i, (i < n)%nat -> double (x i) /\ double (pdf i) /\ zero_or_more (pdf i) /\ zero_or_more (Rabs (x i - mean))) ->
  (let exact := xsum (seq 0 n) (fun i => (x i - mean) * (x i - mean) * pdf i) in
   Rabs (f_var_discrete t x pdf mean - exact) <= (INR n + 3) * bpow radix2 (-52) * exact) /\
  ((forall i, (i < n)%nat -> zero_or_more (x i)) ->
   let exact := xsum (seq 0 n) (fun i => x i * pdf i) in
   Rabs (f_mean_discrete t x pdf - exact) <= INR n * bpow radix2 (-52) * exact).
Proof.
  intros C [N1 N2] M H. assert (L : length (entries t) = n) by (rewrite (Permutation_length C), seq_length; reflexivity).
  assert (BIG : (n + 3 <= 2 ^ 30)%nat) by (pose proof (big_enough n 1 3 N2 ltac:(lia) ltac:(lia)) as BE; rewrite Nat.mul_1_l in BE; exact BE).
  split.
  - cbv zeta. rewrite <- (xsum_perm _ _ _ C). replace (INR n + 3) with (INR (n + 3)) by (rewrite plus_INR; cbn; lra).
    apply rel_many; [exact BIG|]. replace (n + 3)%nat with (4 + (length (entries t) - 1))%nat by lia. apply fsum_relk. intros i I.
    apply (covers_in _ _ _ C) in I. destruct (H i I) as (X & P & ZP & ZX). split; [|apply fmul_double].
    apply rel_rnd0 with (e := (400 + 200)%Z); [lia| | |lia].
    + apply (rel_mul 3 0); [apply fsquare_sub_rel; assumption|apply rel_refl, (zom_pos 200), ZP].
    + apply zom_mul; [|exact ZP]. replace ((x i - mean) * (x i - mean)) with (Rabs (x i - mean) * Rabs (x i - mean)) by (rewrite <- Rabs_mult; apply Rabs_pos_eq, Rle_0_sqr).
      apply (zom_mul 200 200); exact ZX.
  - intros ZX. cbv zeta. rewrite <- (xsum_perm _ _ _ C). apply rel_many; [lia|].
    replace n with (1 + (length (entries t) - 1))%nat by lia. apply fsum_relk. intros i I.
    apply (covers_in _ _ _ C) in I. destruct (H i I) as (X & P & ZP & _). specialize (ZX i I). split; [|apply fmul_double].
    apply rel_rnd0 with (e := (200 + 200)%Z); [lia| |apply zom_mul; assumption|lia].
    apply (rel_mul 0 0); apply rel_refl; [apply (zom_pos 200), ZX|apply (zom_pos 200), ZP].
Qed.

Lemma rel_rndb n e x y : (n <= 2 ^ 30)%nat -> rel n x y -> zom e x -> (e <= 999)%Z -> rel (S n) x (rnd y).
Proof.
  intros N H Z E. destruct Z as [-> | Z].
  - destruct H as (_ & A & B). rewrite Rmult_0_l in A, B. replace y with 0 by lra. rewrite rnd_0. split; [lra|split; lra].
  - replace (S n) with (n + 1)%nat by lia. apply rel_trans with y; [exact H|]. apply (rel_rnd 0); [lia| |].
    + apply rel_refl, (rel_pos _ _ _ H).
    + destruct H as (X & A & B). pose proof (q_bernoulli n) as Q. pose proof (two_pow_30 n N) as IN.
      assert (/ 2 <= (1 - u) ^ n) by (apply Rle_trans with (2 := Q); rewrite u_is; lra).
      apply Rle_trans with (bpow radix2 (- e + -1)); [apply bpow_le; lia|]. rewrite bpow_plus. replace (bpow radix2 (-1)) with (/ 2) by (cbn; lra).
      apply Rle_trans with (x * (1 - u) ^ n); [|exact A]. apply Rmult_le_compat; try lra. apply bpow_ge_0.
Qed.
Lemma zom_xsum e l v : (forall i, In i l -> zom e (v i)) -> zom e (xsum l v).
Proof.
  unfold xsum. induction l as [|i l IH]; cbn; intro H; [left; reflexivity|]. apply zom_add; [apply H; left; reflexivity|].
  apply IH. intros; apply H; right; assumption.
Qed.
Lemma zom_weak e f x : (e <= f)%Z -> zom e x -> zom f x.
Proof. intros L [-> | H]; [left; reflexivity|right]. apply Rle_trans with (2 := H). apply bpow_le. lia. Qed.
(** The mean and the variance of a Mixture with non-negative means: the mean is within 2n units of 2^-52 of the weighted mean;
    the variance is a difference, so its error is relative to the second moment and the squared mean, not to the variance. *)
Theorem C91_mixture n t t' weights means vars : covers t n -> covers t' n -> (1 <= n <= 2 ^ 20)%nat ->
  (forall i, (i < n)%nat -> double (weights i) /\ zero_or_more (weights i) /\ double (means i) /\ zero_or_more (means i) /\
                            double (vars i) /\ zero_or_more (vars i)) ->
  let total := xsum (seq 0 n) weights in
  0 < total <= bpow radix2 90 ->
  let mean := xsum (seq 0 n) (fun i => means i * (weights i / total)) in
  let second := xsum (seq 0 n) (fun i => weights i / total * (vars i + means i * means i)) in
  Rabs (f_mix_mean t t' weights means - mean) <= 2 * INR n * bpow radix2 (-52) * mean /\
  Rabs (f_mix_var t t' weights means vars - (second - mean * mean)) <= (4 * INR n + 2) * bpow radix2 (-52) * (second + mean * mean).
Proof.
  intros C C' [N1 N2] H total T mean second.
  assert (BIG : (4 * n + 2 <= 2 ^ 30)%nat) by (apply (big_enough n 4 2); [exact N2|lia|lia]).
  assert (L : length (entries t) = n) by (rewrite (Permutation_length C), seq_length; reflexivity).
  assert (L' : length (entries t') = n) by (rewrite (Permutation_length C'), seq_length; reflexivity).
  assert (RT : rel (n - 1) total (fsum t weights)).
  { unfold total. rewrite <- (xsum_perm _ _ _ C). replace (n - 1)%nat with (0 + (length (entries t) - 1))%nat by lia. apply fsum_relk.
    intros i I. apply (covers_in _ _ _ C) in I. destruct (H i I) as (D & ZW & _). split; [apply rel_refl, (zom_pos 200), ZW|exact D]. }
  assert (ZI : zom 90 (/ total)).
  { right. rewrite bpow_opp. apply Rinv_le_contravar; apply T. }
  assert (RP : forall i, (i < n)%nat -> rel n (weights i / total) (f_weights t weights i) /\ zom 290 (weights i / total)).
  { intros i I. destruct (H i I) as (D & ZW & _). assert (ZQ : zom 290 (weights i / total)) by (apply (zom_mul 200 90); assumption).
    split; [|exact ZQ]. unfold f_weights, fdiv. replace n with (S (0 + (n - 1)))%nat at 1 by lia.
    apply rel_rndb with (e := 290%Z); [lia| |exact ZQ|lia]. apply rel_div; [apply T|apply rel_refl, (zom_pos 200), ZW|exact RT]. }
  assert (ZM : zom 490 mean).
  { apply zom_xsum. intros i I. apply in_seq in I. assert (I' : (i < n)%nat) by lia. destruct (H i I') as (_ & _ & _ & Z & _).
    apply (zom_mul 200 290); [exact Z|apply (RP i I')]. }
  assert (RM : rel (2 * n) mean (f_mix_mean t t' weights means)).
  { unfold mean. rewrite <- (xsum_perm _ _ _ C'). unfold f_mix_mean. replace (2 * n)%nat with (S n + (length (entries t') - 1))%nat by lia. apply fsum_relk.
    intros i I. apply (covers_in _ _ _ C') in I. split; [|apply fmul_double]. destruct (H i I) as (_ & _ & D & Z & _). destruct (RP i I) as [RPi ZQ].
    apply rel_rndb with (e := 490%Z); [lia| |apply (zom_mul 200 290); assumption|lia].
    apply (rel_mul 0 n); [apply rel_refl, (zom_pos 200), Z|exact RPi]. }
  assert (RM2 : rel (S (2 * n + 2 * n)) (mean * mean) (fsquare (f_mix_mean t t' weights means))).
  { unfold fsquare. apply rel_rndb with (e := (490 + 490)%Z); [lia|apply rel_mul; exact RM|apply zom_mul; exact ZM|lia]. }
  assert (RS : rel (2 * n + 2) second (fsum t' (fun i => fmul (f_weights t weights i) (fadd (vars i) (fsquare (means i)))))).
  { unfold second. rewrite <- (xsum_perm _ _ _ C'). replace (2 * n + 2)%nat with (S (n + 2) + (length (entries t') - 1))%nat by lia. apply fsum_relk.
    intros i I. apply (covers_in _ _ _ C') in I. split; [|apply fmul_double]. destruct (H i I) as (_ & _ & D & Z & DV & ZV). destruct (RP i I) as [RPi ZQ].
    assert (R1 : rel 1 (means i * means i) (fsquare (means i))).
    { unfold fsquare. apply (rel_rndb 0) with (e := 400%Z); [lia| |apply (zom_mul 200 200); exact Z|lia].
      apply rel_refl. apply (zom_pos 400), (zom_mul 200 200); exact Z. }
    assert (R2 : rel 2 (vars i + means i * means i) (fadd (vars i) (fsquare (means i)))).
    { apply rel_fadd; [|exact DV|apply rnd_double]. apply rel_add; [|exact R1]. apply (rel_weak 0); [lia|]. apply rel_refl, (zom_pos 200), ZV. }
    apply rel_rndb with (e := (290 + 400)%Z); [lia|apply rel_mul; assumption| |lia].
    apply zom_mul; [exact ZQ|]. apply zom_add; [apply (zom_weak 200); [lia|exact ZV]|apply (zom_mul 200 200); exact Z]. }
  split.
  - replace (2 * INR n) with (INR (2 * n)) by (rewrite mult_INR; cbn; lra). apply rel_many; [lia|exact RM].
  - unfold f_mix_var. set (s' := fsum t' _) in *. set (m' := fsquare _) in *.
    assert (E1 : Rabs (s' - second) <= INR (2 * n + 2) * bpow radix2 (-52) * second) by (apply rel_many; [lia|exact RS]).
    assert (E2 : Rabs (m' - mean * mean) <= INR (S (2 * n + 2 * n)) * bpow radix2 (-52) * (mean * mean)) by (apply rel_many; [lia|exact RM2]).
    assert (DS : double s') by (apply fsum_double; intros; apply fmul_double).
    assert (DM : double m') by apply rnd_double.
    assert (E3 : Rabs (fsub s' m' - (s' - m')) <= u * Rabs (s' - m')).
    { destruct (Rle_or_lt m' s') as [G|G].
      - apply sub_err; assumption.
      - replace (fsub s' m') with (- fsub m' s').
        + replace (- fsub m' s' - (s' - m')) with (- (fsub m' s' - (m' - s'))) by ring. rewrite Rabs_Ropp.
          rewrite (Rabs_minus_sym s' m'). apply sub_err; [assumption|assumption|lra].
        + unfold fsub. replace (s' - m') with (- (m' - s')) by ring. unfold rnd. now rewrite round_NE_opp. }
    pose proof (rel_pos _ _ _ RS) as PS. pose proof (rel_pos _ _ _ RM2) as PM. destruct RS as (PS0 & _ & BS). destruct RM2 as (PM0 & _ & BM).
    rewrite S_INR in E2. replace (INR (2 * n + 2 * n)) with (4 * INR n) in E2 by (rewrite plus_INR, mult_INR; cbn; lra).
    replace (INR (2 * n + 2)) with (2 * INR n + 2) in E1 by (rewrite plus_INR, mult_INR; cbn; lra).
    assert (N1' : 1 <= INR n) by (replace 1 with (INR 1) by reflexivity; apply le_INR, N1).
    pose proof (two_pow_30 (4 * n + 2) ltac:(lia)) as IB. replace (INR (4 * n + 2)) with (4 * INR n + 2) in IB by (rewrite plus_INR, mult_INR; cbn; lra).
    assert (U2 : bpow radix2 (-52) = 2 * u) by (rewrite u_is; cbn; lra). rewrite U2 in *.
    assert (US : (4 * INR n + 2) * (2 * u) <= 1) by (rewrite u_is; lra).
    pose proof u_small as U. set (mm := mean * mean) in *.
    assert (S2 : s' <= 2 * second).
    { apply Rabs_le_inv in E1. assert ((2 * INR n + 2) * (2 * u) * second <= 1 * second); [|lra]. apply Rmult_le_compat_r; [exact PS0|]. nra. }
    assert (M2 : m' <= 2 * mm).
    { apply Rabs_le_inv in E2. assert ((4 * INR n + 1) * (2 * u) * mm <= 1 * mm); [|lra]. apply Rmult_le_compat_r; [exact PM0|]. nra. }
    assert (AB : Rabs (s' - m') <= 2 * second + 2 * mm) by (apply Rabs_le; lra).
    assert (E4 : u * Rabs (s' - m') <= 2 * u * (second + mm)) by nra.
    replace (fsub s' m' - (second - mm)) with ((fsub s' m' - (s' - m')) + ((s' - second) - (m' - mm))) by ring.
    eapply Rle_trans; [apply Rabs_triang|]. eapply Rle_trans; [apply Rplus_le_compat; [exact E3|]|].
    { unfold Rminus at 1. eapply Rle_trans; [apply Rabs_triang|]. rewrite Rabs_Ropp. apply Rplus_le_compat; [exact E1|exact E2]. }
    assert (K1 : 0 <= (2 * INR n - 1) * (2 * u) * second) by (apply Rmult_le_pos; [|exact PS0]; nra).
    lra.
Qed.

(** The variance of a Mixture can be negative and its standard deviation nan: two members with mean 5 and a variance of at
    most 2^-50 (Normal(5, 1e-8)), weights 1 and 2, give a variance of -2^-48. *)
Theorem C91_mixture_var_refuted : forall v, (forall i : nat, 0 <= v i <= bpow radix2 (-50)) ->
  let weights := fun i => nth i [1; 2] 0 in
  let var := f_mix_var (left_to_right 1) (left_to_right 1) weights (fun _ => 5) v in
  var = - bpow radix2 (-48) /\ f_std var = NaN.
Proof.
  intros v V weights var.
  assert (I : forall z, (Z.abs z <= 2 ^ 53)%Z -> rnd (IZR z) = IZR z) by (intros; apply rnd_id, double_int; assumption).
  assert (X : forall w, fsum (left_to_right 1) w = fadd (w 0%nat) (w 1%nat)) by reflexivity.
  assert (T : fsum (left_to_right 1) weights = 3).
  { cbn. unfold fadd. replace (1 + 2) with 3 by lra. apply (I 3%Z). lia. }
  assert (W0 : f_weights (left_to_right 1) weights 0 = 6004799503160661 * / 18014398509481984).
  { unfold f_weights, fdiv. rewrite T. cbn [weights nth]. rewrite (rnd_is (-54) 6004799503160661) by (cbn; first [lia | split; lra | apply Rabs_def1; lra]). reflexivity. }
  assert (W1 : f_weights (left_to_right 1) weights 1 = 6004799503160661 * / 9007199254740992).
  { unfold f_weights, fdiv. rewrite T. cbn [weights nth]. rewrite (rnd_is (-53) 6004799503160661) by (cbn; first [lia | split; lra | apply Rabs_def1; lra]). reflexivity. }
  assert (SQ : fsquare 5 = 25) by (unfold fsquare; replace (5 * 5) with 25 by lra; apply (I 25%Z); lia).
  assert (A : forall i, fadd (v i) (fsquare 5) = 25).
  { intro i. rewrite SQ. destruct (V i) as [V0 V1]. unfold fadd.
    assert (K : bpow radix2 (-50) = / 1125899906842624) by reflexivity. rewrite K in V1.
    rewrite (rnd_is (-48) 7036874417766400) by (cbn; first [lia | split; lra | apply Rabs_def1; lra]). cbn. lra. }
  assert (S1 : fsum (left_to_right 1) (fun i => fmul (f_weights (left_to_right 1) weights i) (fadd (v i) (fsquare 5))) = 7036874417766399 * / 281474976710656).
  { rewrite X, !A, W0, W1.
    assert (E0 : fmul (6004799503160661 * / 18014398509481984) 25 = 4691249611844266 * / 562949953421312).
    { unfold fmul. rewrite (rnd_is (-49) 4691249611844266) by (cbn; first [lia | split; lra | apply Rabs_def1; lra]). reflexivity. }
    assert (E1 : fmul (6004799503160661 * / 9007199254740992) 25 = 4691249611844266 * / 281474976710656).
    { unfold fmul. rewrite (rnd_is (-48) 4691249611844266) by (cbn; first [lia | split; lra | apply Rabs_def1; lra]). reflexivity. }
    rewrite E0, E1. unfold fadd. rewrite (rnd_is (-48) 7036874417766399) by (cbn; first [lia | split; lra | apply Rabs_def1; lra]). reflexivity. }
  assert (S2 : f_mix_mean (left_to_right 1) (left_to_right 1) weights (fun _ => 5) = 5).
  { unfold f_mix_mean. rewrite X, W0, W1.
    assert (E0 : fmul 5 (6004799503160661 * / 18014398509481984) = 7505999378950826 * / 4503599627370496).
    { unfold fmul. rewrite (rnd_is (-52) 7505999378950826) by (cbn; first [lia | split; lra | apply Rabs_def1; lra]). reflexivity. }
    assert (E1 : fmul 5 (6004799503160661 * / 9007199254740992) = 7505999378950826 * / 2251799813685248).
    { unfold fmul. rewrite (rnd_is (-51) 7505999378950826) by (cbn; first [lia | split; lra | apply Rabs_def1; lra]). reflexivity. }
    rewrite E0, E1. unfold fadd. rewrite (rnd_tie (-50) 5629499534213119) by (cbn; first [lia | split; lra | lra]). cbn. lra. }
  assert (E : var = - bpow radix2 (-48)).
  { unfold var, f_mix_var. rewrite S2, S1, SQ. unfold fsub.
    replace (7036874417766399 * / 281474976710656 - 25) with (- bpow radix2 (-48)) by (cbn; lra). apply rnd_id, double_opp, double_bpow. lia. }
  split; [exact E|]. unfold f_std. rewrite E. pose proof (bpow_gt_0 radix2 (-48)). unfold Rltb. destruct (Rlt_dec _ 0); [reflexivity|lra].
Qed.

(* ------------------------------------------------------------ the hypotheses are met *)
(** 1000 values between 0 and 3 and a density that is 1/3 everywhere. *)
Example C91_applies : good_ends 0 3 /\ (2 <= 1000 <= 2 ^ 40)%nat /\ covers (left_to_right 998) 999 /\
  (forall i : nat, (i < 1000)%nat -> 0 <= (fun _ : nat => / 3) i) /\ Rabs 3 <= bpow radix2 2.
Proof.
  split; [split; [exact double_0|split; [apply (double_int 3); lia|right]]|].
  - apply Rle_trans with (0 + bpow radix2 1); [apply Rplus_le_compat_l, bpow_le; lia|cbn; lra].
  - split; [|split; [|split]].
    + split; [lia|]. apply Nat.le_trans with (2 ^ 10)%nat; [apply Nat.leb_le; reflexivity|apply Nat.pow_le_mono_r; lia].
    + unfold covers. change 999%nat with (S 998). generalize 998%nat. intro k.
      induction k as [|k IH]; [reflexivity|]. cbn [left_to_right entries]. rewrite seq_S. apply Permutation_app; [exact IH|reflexivity].
    + intros. lra.
    + rewrite Rabs_pos_eq; cbn; lra.
Qed.

(** The numbers 0 to 4 with density 1/4 and mean 2; a mixture with weights 1, 2 and 3. *)
Example C91_accuracy_applies : let x := fun i => IZR (Z.of_nat i) in let pdf := fun _ : nat => bpow radix2 (-2) in
  (forall i, (i < 5)%nat -> double (x i) /\ double (pdf i) /\ zero_or_more (pdf i) /\ zero_or_more (Rabs (x i - 2)) /\ zero_or_more (x i)) /\
  (forall i, (S i < 5)%nat -> zero_or_more (x (S i) - x i)) /\
  (let weights := fun i => IZR (Z.of_nat i + 1) in
   (forall i, (i < 3)%nat -> double (weights i) /\ zero_or_more (weights i)) /\ 0 < xsum (seq 0 3) weights <= bpow radix2 90).
Proof.
  intros x pdf.
  assert (ONE : bpow radix2 (-200) <= 1) by (replace 1 with (bpow radix2 0) by (cbn; lra); apply bpow_le; lia).
  assert (Z : forall z, (0 <= z)%Z -> zero_or_more (IZR z)).
  { intros z Hz. destruct (Z.eq_dec z 0) as [-> | D]; [left; reflexivity|right]. apply Rle_trans with (1 := ONE). apply IZR_le. lia. }
  split; [|split].
  - intros i I. split; [apply double_int; lia|split; [apply double_bpow; lia|split; [right; apply bpow_le; lia|split]]].
    + unfold x. rewrite <- (minus_IZR (Z.of_nat i) 2), <- abs_IZR. apply Z. lia.
    + apply Z. lia.
  - intros i I. unfold x. rewrite <- minus_IZR. apply Z. lia.
  - intros weights. split; [intros i I; split; [apply double_int; lia|apply Z; lia]|].
    assert (B : 8 <= bpow radix2 90) by (replace 8 with (bpow radix2 3) by (cbn; lra); apply bpow_le; lia).
    unfold weights, xsum. cbn -[bpow]. lra.
Qed.

Print Assumptions C91_grid.
Print Assumptions C91_grid_places.
Print Assumptions C91_grid_ties_refuted.
Print Assumptions C91_variance.
Print Assumptions C91_variance_on_grid.
Print Assumptions C91_integrals.
Print Assumptions C91_sums.
Print Assumptions C91_mixture.
Print Assumptions C91_mixture_var_refuted.
