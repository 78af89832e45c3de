(** C30: the quantile search of find_ppf for integer valued variables. The search is modelled in MixModel.v. *)
From Coq Require Import List Bool Reals Lra Lia ZArith.
From Verif Require Import Base XR SpecialModel LawModel LawSpec LawProofs TruncProofs TruncProps MixModel MixSpec CensProps MixProps.
Open Scope R_scope.

(** [F] is the distribution function of an integer valued variable. *)
Definition integer_valued (F : xr -> R) : Prop := forall r, F (Fin r) = F (Fin (IZR (Int_part r))).
(** [k] is the quantile of level [q]: the smallest integer with at least that much probability at or below it. *)
Definition is_quantile (F : xr -> R) (q : R) (k : Z) : Prop := F (Fin (IZR k - 1)) < q <= F (Fin (IZR k)).

Lemma Int_part_bounds r : IZR (Int_part r) <= r < IZR (Int_part r) + 1.
Proof. destruct (base_Int_part r). lra. Qed.

Lemma Rabs_def2_le x a : Rabs x <= a -> - a <= x <= a.
Proof. unfold Rabs. destruct (Rcase_abs x); lra. Qed.

Lemma step_quantile F q : distribution_function F -> integer_valued F ->
  forall n a, F (Fin (IZR a)) < q -> q <= F (Fin (IZR (a + Z.of_nat n))) -> exists k, (a < k <= a + Z.of_nat n)%Z /\ is_quantile F q k.
Proof.
  intros D I. induction n as [|n IH]; intros a A B.
  - replace (a + Z.of_nat 0)%Z with a in B by lia. lra.
  - destruct (Rle_lt_dec q (F (Fin (IZR (a + 1))))) as [C|C].
    + exists (a + 1)%Z. split; [lia|]. split; [|exact C]. rewrite plus_IZR. replace (IZR a + 1 - 1) with (IZR a) by ring. exact A.
    + destruct (IH (a + 1)%Z C) as (k & K1 & K2); [replace (a + 1 + Z.of_nat n)%Z with (a + Z.of_nat (S n))%Z by lia; exact B|].
      exists k. split; [lia|exact K2].
Qed.

(** Between any two points with less and at least probability q lies exactly one quantile. *)
Lemma quantile_between F q x y : distribution_function F -> integer_valued F -> F (Fin x) < q <= F (Fin y) ->
  exists k, x < IZR k <= y /\ is_quantile F q k.
Proof.
  intros D I [A B]. rewrite (I x) in A. rewrite (I y) in B. pose proof (Int_part_bounds x). pose proof (Int_part_bounds y).
  assert (L : (Int_part x < Int_part y)%Z).
  { destruct (Z_lt_le_dec (Int_part x) (Int_part y)) as [L|L]; [exact L|]. exfalso. destruct D as (Mo & _).
    assert (F (Fin (IZR (Int_part y))) <= F (Fin (IZR (Int_part x)))) by (apply Mo, xle_fin, IZR_le, L). lra. }
  destruct (step_quantile F q D I (Z.to_nat (Int_part y - Int_part x)) (Int_part x) A) as (k & K1 & K2).
  { replace (Int_part x + Z.of_nat (Z.to_nat (Int_part y - Int_part x)))%Z with (Int_part y) by lia. exact B. }
  exists k. split; [|exact K2]. assert (Int_part x + 1 <= k)%Z by lia. assert (k <= Int_part y)%Z by lia.
  apply IZR_le in H1, H2. rewrite plus_IZR in H1. lra.
Qed.
Lemma quantile_unique F q j k : distribution_function F -> is_quantile F q j -> is_quantile F q k -> j = k.
Proof.
  intros (Mo & _) [A1 A2] [B1 B2].
  assert (H : forall a b, F (Fin (IZR b - 1)) < q -> q <= F (Fin (IZR a)) -> (b <= a)%Z).
  { intros a b H1 H2. destruct (Z_lt_le_dec a b) as [L|L]; [|exact L]. exfalso. assert (a <= b - 1)%Z as L' by lia. apply IZR_le in L'. rewrite minus_IZR in L'.
    assert (F (Fin (IZR a)) <= F (Fin (IZR b - 1))) by (apply Mo, xle_fin; lra). lra. }
  pose proof (H j k B1 A2). pose proof (H k j A1 B2). lia.
Qed.
(** The quantile of every level strictly between 0 and 1 exists and is unique. *)
Theorem C30_quantile_exists : forall F q, distribution_function F -> integer_valued F -> 0 < q < 1 ->
  exists k, is_quantile F q k /\ forall j, is_quantile F q j -> j = k.
Proof.
  intros F q D I Hq. pose proof D as (_ & _ & _ & Tl & Th). destruct (Tl q ltac:(lra)) as [a A]. destruct (Th q ltac:(lra)) as [b B].
  destruct (quantile_between F q a b D I (conj A B)) as (k & _ & K). exists k. split; [exact K|]. intros j J. exact (quantile_unique F q j k D J K).
Qed.

(** The search terminates, and for a level that is not itself a value of the distribution function (where its graph jumps over
    q) the point returned is within the tolerance of the root finder of the quantile: rounding it gives the quantile. *)
Theorem C30_discrete_quantile : forall brentq tol cdf F q lo up, (forall x, number x -> cdf x = Fin (F x)) -> distribution_function F ->
  integer_valued F -> 0 < tol < 1 / 2 -> 0 < q < 1 -> (forall z, F (Fin (IZR z)) <> q) -> number up -> up <> NInf ->
  finds_crossing brentq tol F (fun x => xsub (cdf x) (Fin q)) q ->
  exists N, forall fuel, (N <= fuel)%nat -> exists x k,
    find_ppf brentq false fuel Discrete cdf (lo, up) (Fin q) = Some (Fin x) /\
    is_quantile F q k /\ x - tol < IZR k <= x + tol /\ (forall j, Rabs (x - IZR j) <= 1 / 2 -> j = k).
Proof.
  intros brentq tol cdf F q lo up Hc D I Ht Hq Ne Nu Hu B.
  destruct (C48_find_ppf brentq tol Discrete cdf F q lo up Hc D ltac:(lra) Hq Nu Hu B) as [N HN]. exists N. intros fuel Hf.
  destruct (HN fuel Hf) as (x & E & H1 & H2 & _). exists x.
  assert (A1 : F (Fin (x - tol)) < q).
  { destruct (Rle_lt_or_eq_dec _ _ (H2 (x - tol) ltac:(lra))) as [L|L]; [exact L|]. rewrite I in L. destruct (Ne _ L). }
  destruct (quantile_between F q (x - tol) (x + tol) D I (conj A1 (H1 (x + tol) ltac:(lra)))) as (k & K1 & K2). exists k.
  split; [exact E|]. split; [exact K2|]. split; [exact K1|]. intros j J.
  assert (A : (j < k + 1)%Z /\ (k < j + 1)%Z); [|lia].
  split; apply lt_IZR; rewrite plus_IZR; apply Rabs_def2_le in J; lra.
Qed.

(** For a level that the distribution function takes, every point between the quantile and the next value is a crossing, and
    the search may return any of them: the result is at or above the quantile, and below the next possible value. *)
Theorem C30_quantile_on_a_step : forall brentq tol cdf F q lo up z n, (forall x, number x -> cdf x = Fin (F x)) -> distribution_function F ->
  integer_valued F -> 0 <= tol < 1 -> 0 < q < 1 -> is_quantile F q z -> F (Fin (IZR z)) = q -> q < F (Fin (IZR n)) -> number up -> up <> NInf ->
  finds_crossing brentq tol F (fun x => xsub (cdf x) (Fin q)) q ->
  exists N, forall fuel, (N <= fuel)%nat -> exists x,
    find_ppf brentq false fuel Discrete cdf (lo, up) (Fin q) = Some (Fin x) /\ IZR z - tol <= x < IZR n + tol.
Proof.
  intros brentq tol cdf F q lo up z n Hc D I Ht Hq Z1 Z2 Hn Nu Hu B.
  destruct (C48_find_ppf brentq tol Discrete cdf F q lo up Hc D ltac:(lra) Hq Nu Hu B) as [N HN]. exists N. intros fuel Hf.
  destruct (HN fuel Hf) as (x & E & H1 & H2 & _). exists x. split; [exact E|]. pose proof D as (Mo & _). split.
  - destruct (Rle_lt_dec (IZR z - tol) x) as [L|L]; [exact L|]. exfalso. pose proof (H1 (x + tol) ltac:(lra)) as G.
    destruct Z1 as [Z1 _]. rewrite (I (x + tol)) in G. pose proof (Int_part_bounds (x + tol)).
    assert (Int_part (x + tol) < z)%Z as L' by (apply lt_IZR; lra). assert (Int_part (x + tol) <= z - 1)%Z as L2 by lia. apply IZR_le in L2. rewrite minus_IZR in L2.
    assert (F (Fin (IZR (Int_part (x + tol)))) <= F (Fin (IZR z - 1))) by (apply Mo, xle_fin; lra). lra.
  - destruct (Rlt_le_dec x (IZR n + tol)) as [L|L]; [exact L|]. exfalso. pose proof (H2 (IZR n) ltac:(lra)). lra.
Qed.
(** So the claim that the search returns the quantile itself is false when the level is a value of the distribution function:
    for a fair die and q = 1/2 a root finder may answer 3.7, which is neither a face nor within 1/2 of the median 3. *)
Theorem C30_returns_the_quantile_refuted :
  ~ (forall brentq tol cdf F q lo up k, (forall x, number x -> cdf x = Fin (F x)) -> distribution_function F -> integer_valued F -> 0 <= tol < 1 / 2 ->
       0 < q < 1 -> is_quantile F q k -> number up -> up <> NInf -> finds_crossing brentq tol F (fun x => xsub (cdf x) (Fin q)) q ->
       exists fuel x, find_ppf brentq false fuel Discrete cdf (lo, up) (Fin q) = Some (Fin x) /\ Rabs (x - IZR k) <= 1 / 2).
Proof.
  intro C. set (b := fun (_ : xr -> xr) (x y : xr) => match x, y with Fin a, Fin b => Fin (Rmax a (Rmin b 3.7)) | _, _ => NaN end).
  pose proof (die_lawful 6 ltac:(lia)) as L.
  assert (V : forall z, die_F 6 (Fin (IZR z)) = IZR (Z.max 0 (Z.min z 6)) / 6) by (intro z; apply die_F_IZR; lia).
  assert (I : integer_valued (die_F 6)) by (exact (proj1 (l_disc _ _ L eq_refl))).
  assert (D : distribution_function (die_F 6)).
  { refine (conj (l_mono _ _ L) (conj eq_refl (conj eq_refl (conj (l_tight_lo _ _ L) (l_tight_hi _ _ L))))). }
  assert (Hc : forall x, number x -> m_cdf (die 6) x = Fin (die_F 6 x)) by exact (l_cdf _ _ L).
  assert (B : finds_crossing b 0 (die_F 6) (fun x => xsub (m_cdf (die 6) x) (Fin (1 / 2))) (1 / 2)).
  { intros x y Hxy [H1 H2]. exists (Rmax x (Rmin y 3.7)). split; [reflexivity|].
    assert (R1 : x <= Rmax x (Rmin y 3.7) <= y) by (unfold Rmax, Rmin; repeat destruct (Rle_dec _ _); lra). split; [exact R1|].
    rewrite Rminus_0_r, Rplus_0_r. destruct D as (Mo & _).
    pose proof (V 3%Z) as V3. cbn in V3.
    assert (G : forall t, 3 <= t < 4 -> die_F 6 (Fin t) = 1 / 2).
    { intros t Ht. rewrite I. replace (Int_part t) with 3%Z; [rewrite V; cbn; lra|]. symmetry.
      pose proof (Int_part_bounds t). assert (3 < Int_part t + 1)%Z by (apply lt_IZR; rewrite plus_IZR; lra).
      assert (Int_part t < 4)%Z by (apply lt_IZR; lra). lia. }
    unfold Rmax, Rmin. destruct (Rle_dec y 3.7), (Rle_dec x _); try lra.
    - split; [|exact H2]. rewrite G; [lra|]. split; [|lra]. destruct (Rle_lt_dec 3 y) as [K|K]; [exact K|]. exfalso.
      rewrite I, V in H2. pose proof (Int_part_bounds y). assert (Int_part y <= 2)%Z by (apply Zlt_succ_le; change (Z.succ 2) with 3%Z; apply lt_IZR; lra).
      assert (IZR (Z.max 0 (Z.min (Int_part y) 6)) <= 2) by (apply IZR_le; lia). lra.
    - rewrite G by lra. lra.
    - rewrite G; [lra|]. split; [lra|]. destruct (Rlt_le_dec x 4) as [K|K]; [exact K|]. exfalso.
      rewrite I, V in H1. pose proof (Int_part_bounds x). assert (4 <= Int_part x)%Z by (apply Zlt_succ_le; apply lt_IZR; unfold Z.succ; rewrite plus_IZR; lra).
      assert (4 <= IZR (Z.max 0 (Z.min (Int_part x) 6))) by (apply IZR_le; lia). lra. }
  assert (Q : is_quantile (die_F 6) (1 / 2) 3).
  { unfold is_quantile. replace (IZR 3 - 1) with (IZR 2) by lra. rewrite !V. cbn. lra. }
  destruct (C b 0 _ _ (1 / 2) (Fin 1) (Fin 6) 3%Z Hc D I ltac:(lra) ltac:(lra) Q ltac:(discriminate) ltac:(discriminate) B) as (fuel & x & E & A).
  unfold find_ppf in E. cbn [xltb xeqb] in E. rewrite !Rltb_false, !Reqb_false in E by lra.
  assert (T : bracket fuel (m_cdf (die 6)) (Fin 1, Fin 6) (Fin (1 / 2)) = Some (Fin (-10), Fin 10)).
  { unfold bracket, pymin. cbn [snd xltb]. rewrite Rltb_false by lra.
    assert (G : go_left fuel (m_cdf (die 6)) (Fin (1 / 2)) (Fin (-10)) (Fin 6) = Some (Fin (-10), Fin 6)).
    { destruct fuel; cbn [go_left]; rewrite Hc, (V (-10)%Z) by discriminate; cbn [xsub xneg xadd xltb]; rewrite Rltb_false by (cbn; lra); reflexivity. }
    rewrite G. unfold pymax. cbn [xltb]. rewrite Rltb_false by lra.
    destruct fuel; cbn [go_right]; rewrite Hc, (V 10%Z) by discriminate; cbn [xsub xneg xadd xltb]; rewrite Rltb_false by (cbn; lra); reflexivity. }
  rewrite T in E. unfold b in E. injection E as E. rewrite Rmin_right, Rmax_right in E by lra.
  apply Rabs_def2_le in A. lra.
Qed.
(** The hypotheses hold for a die at q = 1/4, with a root finder that stops within 1/8 of the second face. *)
Example C30_quantile_applies : let F := die_F 6 in
  distribution_function F /\ integer_valued F /\ (forall z, F (Fin (IZR z)) <> 1 / 4) /\ is_quantile F (1 / 4) 2 /\
  finds_crossing (fun _ x y => match x, y with Fin a, Fin b => Fin (Rmax a (Rmin b 2)) | _, _ => NaN end) (1 / 8) F (fun x => xsub (m_cdf (die 6) x) (Fin (1 / 4))) (1 / 4).
Proof.
  pose proof (die_lawful 6 ltac:(lia)) as L.
  assert (V : forall z, die_F 6 (Fin (IZR z)) = IZR (Z.max 0 (Z.min z 6)) / 6) by (intro z; apply die_F_IZR; lia).
  assert (I : integer_valued (die_F 6)) by (exact (proj1 (l_disc _ _ L eq_refl))).
  assert (V1 : forall t, t < 2 -> die_F 6 (Fin t) <= 1 / 6).
  { intros t Ht. rewrite I, V. pose proof (Int_part_bounds t). assert (Int_part t < 2)%Z by (apply lt_IZR; lra).
    assert (IZR (Z.max 0 (Z.min (Int_part t) 6)) <= 1) by (apply IZR_le; lia). lra. }
  assert (V2 : forall t, 2 <= t -> 1 / 3 <= die_F 6 (Fin t)).
  { intros t Ht. rewrite I, V. pose proof (Int_part_bounds t). assert (2 < Int_part t + 1)%Z by (apply lt_IZR; rewrite plus_IZR; lra).
    assert (2 <= IZR (Z.max 0 (Z.min (Int_part t) 6))) by (apply IZR_le; lia). lra. }
  cbn zeta. split; [|split; [exact I|split; [|split]]].
  - refine (conj (l_mono _ _ L) (conj eq_refl (conj eq_refl (conj (l_tight_lo _ _ L) (l_tight_hi _ _ L))))).
  - intro z. rewrite V. intro E. set (w := Z.max 0 (Z.min z 6)) in *. assert (E' : IZR (2 * w) = IZR 3) by (rewrite mult_IZR; lra). apply eq_IZR in E'. lia.
  - unfold is_quantile. split; [replace (IZR 2 - 1) with (IZR 1) by lra|]; rewrite V; cbn; lra.
  - intros x y Hxy [H1 H2]. exists (Rmax x (Rmin y 2)). split; [reflexivity|].
    assert (R1 : x <= Rmax x (Rmin y 2) <= y) by (unfold Rmax, Rmin; repeat destruct (Rle_dec _ _); lra). split; [exact R1|].
    assert (X : x < 2) by (destruct (Rlt_le_dec x 2) as [K|K]; [exact K|pose proof (V2 _ K); lra]).
    assert (Y : 2 <= y) by (destruct (Rle_lt_dec 2 y) as [K|K]; [exact K|pose proof (V1 _ K); lra]).
    rewrite Rmin_right, Rmax_right by lra. pose proof (V1 (2 - 1 / 8) ltac:(lra)). pose proof (V2 (2 + 1 / 8) ltac:(lra)). lra.
Qed.
Print Assumptions C30_quantile_exists.
Print Assumptions C30_discrete_quantile.
Print Assumptions C30_quantile_on_a_step.
Print Assumptions C30_returns_the_quantile_refuted.
