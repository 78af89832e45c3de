(** Property theorems for the simplex plot (C44), the von Mises intervals (C45) and the density contours (C50). *)
From Coq Require Import List Bool String Reals Lra Lia Psatz Permutation Sorted.
From Verif Require Import Base RLists XR LawModel GeoModel.
Import ListNotations.
Open Scope R_scope.

(* ---------------- specification ---------------- *)
(** The point with barycentric coordinates [b]: the weighted sum of the corners of the equilateral triangle. *)
Definition cartesian (b : list R) : R * R :=
  match b with
  | [b0; b1; b2] => (b0 * 0 + b1 * 1 + b2 * (1 / 2), b0 * 0 + b1 * 0 + b2 * sqrt 0.75)
  | _ => (0, 0)
  end.

(* ---------------- C44 ---------------- *)
Lemma sq75 : sqrt 0.75 * sqrt 0.75 = 0.75.
Proof. apply sqrt_sqrt. lra. Qed.
Lemma sq75_pos : 0 < sqrt 0.75.
Proof. apply sqrt_lt_R0. lra. Qed.
Lemma bsc_eq x y : bsc (x, y) =
  [1 - x - y * sqrt 0.75 * (2 / 3); x - y * sqrt 0.75 * (2 / 3); y * sqrt 0.75 * (4 / 3)].
Proof.
  pose proof sq75 as Q. unfold bsc. cbn [seq map].
  change (midpoint 0) with (pdivs (padd (1, 0) (0.5, sqrt 0.75)) 2).
  change (midpoint 1) with (pdivs (padd (0.5, sqrt 0.75) (0, 0)) 2).
  change (midpoint 2) with (pdivs (padd (0, 0) (1, 0)) 2).
  unfold corner, pdivs, padd, psub, dot. cbn [fst snd]. set (s := sqrt 0.75) in *.
  f_equal; [|f_equal; [|f_equal]]; nra.
Qed.

Theorem C44_sum_to_one : forall xy, Rsum (bsc xy) = 1.
Proof. intros [x y]. rewrite bsc_eq, !Rsum_cons, Rsum_nil. lra. Qed.
Theorem C44_to_cartesian : forall xy, cartesian (bsc xy) = xy.
Proof.
  intros [x y]. rewrite bsc_eq. unfold cartesian. pose proof sq75 as Q. set (s := sqrt 0.75) in *. f_equal; [lra|].
  transitivity (y * (4 / 3) * (s * s)); [ring|rewrite Q; lra].
Qed.
Theorem C44_to_barycentric : forall b0 b1 b2, b0 + b1 + b2 = 1 -> bsc (cartesian [b0; b1; b2]) = [b0; b1; b2].
Proof.
  intros b0 b1 b2 S. unfold cartesian. rewrite bsc_eq. pose proof sq75 as Q. set (s := sqrt 0.75) in *.
  replace ((b0 * 0 + b1 * 0 + b2 * s) * s) with (b2 * (s * s)) by ring. rewrite Q.
  f_equal; [lra|f_equal; [lra|f_equal; lra]].
Qed.
(** The clipped coordinates returned to the plot: exact away from the border, always within the tolerance of it, and
    summing to one up to the tolerance inside the triangle. *)
Lemma clip_R_in x lo hi : lo <= hi -> lo <= clip_R x lo hi <= hi.
Proof. intro H. unfold clip_R, Rmin, Rmax. destruct (Rle_dec x lo); destruct (Rle_dec _ hi); lra. Qed.
Lemma clip_R_id x lo hi : lo <= x <= hi -> clip_R x lo hi = x.
Proof. intro H. unfold clip_R, Rmin, Rmax. destruct (Rle_dec x lo); destruct (Rle_dec _ hi); lra. Qed.
Lemma clip_R_cases x lo hi : lo <= hi ->
  (x <= lo /\ clip_R x lo hi = lo) \/ (lo <= x <= hi /\ clip_R x lo hi = x) \/ (hi <= x /\ clip_R x lo hi = hi).
Proof. intro H. unfold clip_R, Rmin, Rmax. destruct (Rle_dec x lo); destruct (Rle_dec _ hi); lra. Qed.
Theorem C44_exact : forall tol b0 b1 b2, b0 + b1 + b2 = 1 -> Forall (fun b => tol <= b <= 1 - tol) [b0; b1; b2] ->
  xy2bc tol (cartesian [b0; b1; b2]) = [b0; b1; b2].
Proof.
  intros tol b0 b1 b2 S F. unfold xy2bc. rewrite (C44_to_barycentric _ _ _ S). cbn [map].
  inversion F as [|? ? F0 F']; subst. inversion F' as [|? ? F1 F'']; subst. inversion F'' as [|? ? F2 _]; subst.
  rewrite !clip_R_id by assumption. reflexivity.
Qed.
Theorem C44_within : forall tol xy, tol <= 1 / 2 -> Forall (fun b => tol <= b <= 1 - tol) (xy2bc tol xy).
Proof.
  intros tol xy H. unfold xy2bc. apply Forall_forall. intros b I. apply in_map_iff in I.
  destruct I as (c & <- & _). apply clip_R_in. lra.
Qed.
Theorem C44_clipped_sum : forall tol b0 b1 b2, 0 <= tol <= 1 / 3 -> 0 <= b0 -> 0 <= b1 -> 0 <= b2 -> b0 + b1 + b2 = 1 ->
  1 <= Rsum (xy2bc tol (cartesian [b0; b1; b2])) <= 1 + tol.
Proof.
  intros tol b0 b1 b2 T H0 H1 H2 S. unfold xy2bc. rewrite (C44_to_barycentric _ _ _ S). cbn [map].
  rewrite !Rsum_cons, Rsum_nil.
  destruct (clip_R_cases b0 tol (1 - tol) ltac:(lra)) as [[? ->]|[[? ->]|[? ->]]];
    destruct (clip_R_cases b1 tol (1 - tol) ltac:(lra)) as [[? ->]|[[? ->]|[? ->]]];
    destruct (clip_R_cases b2 tol (1 - tol) ltac:(lra)) as [[? ->]|[[? ->]|[? ->]]]; lra.
Qed.
(** The coordinates handed to the density do not sum to one at a corner. *)
Theorem C44_clipped_sum_refuted : Rsum (xy2bc default_tol (0, 0)) = 1 + default_tol.
Proof.
  unfold xy2bc. rewrite bsc_eq. cbn [map]. rewrite !Rsum_cons, Rsum_nil. unfold default_tol.
  destruct (clip_R_cases (1 - 0 - 0 * sqrt 0.75 * (2 / 3)) (1 / 1000) (1 - 1 / 1000) ltac:(lra)) as [[? ->]|[[? ->]|[? ->]]];
    try lra.
  destruct (clip_R_cases (0 - 0 * sqrt 0.75 * (2 / 3)) (1 / 1000) (1 - 1 / 1000) ltac:(lra)) as [[? ->]|[[? ->]|[? ->]]];
    try lra.
  destruct (clip_R_cases (0 * sqrt 0.75 * (4 / 3)) (1 / 1000) (1 - 1 / 1000) ltac:(lra)) as [[? ->]|[[? ->]|[? ->]]]; lra.
Qed.
Example C44_applies : xy2bc default_tol (cartesian [1 / 2; 1 / 4; 1 / 4]) = [1 / 2; 1 / 4; 1 / 4].
Proof. apply C44_exact; [lra|]. unfold default_tol. repeat constructor; lra. Qed.

(** The density of the Dirichlet distribution with parameters [alpha] at [x], [G] being the gamma function. *)
Fixpoint product (l : list R) : R := match l with [] => 1 | x :: r => x * product r end.
Definition dirichlet_density (G : R -> R) (alpha x : list R) : R :=
  G (Rsum alpha) / product (map G alpha) * product (map (fun xa : R * R => Rpower (fst xa) (snd xa - 1)) (combine x alpha)).
Lemma fold_product l : forall a, fold_left Rmult l a = a * product l.
Proof. induction l as [|x l IH]; intro a; cbn [fold_left product]; [ring|]. rewrite IH. ring. Qed.
Lemma exp_sum_ln (G : R -> R) (l : list R) : Forall (fun a => 0 < G a) l -> exp (Rsum (map (fun a => ln (G a)) l)) = product (map G l).
Proof.
  induction 1 as [|a l H _ IH]; cbn [map product]; [rewrite Rsum_nil; apply exp_0|]. rewrite Rsum_cons, exp_plus, IH, exp_ln by exact H. reflexivity.
Qed.
Lemma product_pos l : Forall (fun x => 0 < x) l -> 0 < product l.
Proof. induction 1; cbn; [lra | apply Rmult_lt_0_compat; assumption]. Qed.
(** What is plotted at each point of the triangle: the density of the Dirichlet distribution at the point's clipped coordinates, which away from the border are
    its barycentric coordinates themselves. All densities are positive. *)
Theorem C44_density : forall G gammaln alpha mesh i xy, (forall x, 0 < x -> 0 < G x) -> (forall x, 0 < x -> gammaln x = ln (G x)) ->
  alpha <> [] -> Forall (fun a => 0 < a) alpha -> nth_error mesh i = Some xy ->
  exists p, nth_error (simplex_pvals gammaln alpha mesh) i = Some p /\ p = dirichlet_density G alpha (xy2bc default_tol xy) /\ 0 < p /\
    forall b0 b1 b2, b0 + b1 + b2 = 1 -> Forall (fun b => 1 / 1000 <= b <= 999 / 1000) [b0; b1; b2] -> xy = cartesian [b0; b1; b2] ->
      p = dirichlet_density G alpha [b0; b1; b2].
Proof.
  intros G gl alpha mesh i xy GP GL NE A Hxy.
  exists (simplex_pdf (simplex_coef gl alpha) alpha (xy2bc default_tol xy)). split; [unfold simplex_pvals; rewrite (map_nth_error _ _ _ Hxy); reflexivity|].
  assert (SP : 0 < Rsum alpha).
  { clear -NE A. destruct A as [|a l H L]; [contradiction|]. rewrite Rsum_cons. assert (0 <= Rsum l); [|lra]. clear -L. induction L as [|b l B _ IH]; [rewrite Rsum_nil; lra|]. rewrite Rsum_cons. lra. }
  assert (PG : 0 < product (map G alpha)).
  { apply product_pos. apply Forall_forall. intros g I. apply in_map_iff in I as (a & <- & I). rewrite Forall_forall in A. auto. }
  assert (C : simplex_coef gl alpha = G (Rsum alpha) / product (map G alpha)).
  { unfold simplex_coef. replace (map gl alpha) with (map (fun a => ln (G a)) alpha) by (apply map_ext_in; intros a I; rewrite Forall_forall in A; rewrite GL; auto).
    rewrite (GL _ SP). unfold Rminus, Rdiv. rewrite exp_plus, exp_Ropp, exp_ln by auto. rewrite exp_sum_ln by (apply Forall_forall; rewrite Forall_forall in A; auto). reflexivity. }
  assert (P : forall bc, simplex_pdf (simplex_coef gl alpha) alpha bc = dirichlet_density G alpha bc).
  { intro bc. unfold simplex_pdf, dirichlet_density. rewrite C. f_equal. match goal with |- context [product ?l] => destruct l as [|h t] end; [reflexivity | apply fold_product]. }
  rewrite P. split; [reflexivity|]. split.
  - unfold dirichlet_density. apply Rmult_lt_0_compat; [apply Rdiv_lt_0_compat; auto|]. apply product_pos. apply Forall_forall. intros x I.
    apply in_map_iff in I as (xa & <- & _). apply exp_pos.
  - intros b0 b1 b2 S F ->. rewrite C44_exact; [reflexivity | exact S|]. unfold default_tol. eapply Forall_impl; [|exact F]. intros b B. cbn in B. lra.
Qed.
Example C44_density_applies : (forall x, 0 < x -> 0 < (fun _ : R => 1) x) /\ (forall x, 0 < x -> (fun _ : R => 0) x = ln ((fun _ : R => 1) x)) /\
  nth_error [cartesian [1 / 2; 1 / 4; 1 / 4]] 0 = Some (cartesian [1 / 2; 1 / 4; 1 / 4]).
Proof. repeat split; intros; [lra | rewrite ln_1; reflexivity]. Qed.

(** The grid of panels has a place for every panel, and at most two are left over. *)
Theorem C44_grid : forall n, (n <= fst (get_cols_rows n) * snd (get_cols_rows n) < n + 3)%nat.
Proof.
  intro n. unfold get_cols_rows. destruct (Nat.leb_spec n 3) as [H|H]; cbn [fst snd]; [lia|].
  pose proof (Nat.div_mod (n + 2) 3 ltac:(lia)). pose proof (Nat.mod_upper_bound (n + 2) 3 ltac:(lia)). lia.
Qed.

(* ---------------- C50 ---------------- *)
(** numpy's sort. *)
Definition sorts (sort : list R -> list R) : Prop := forall l, Permutation (sort l) l /\ StronglySorted Rle (sort l).
(** The total density of the cells that satisfy a test. *)
Definition mass_where (test : R -> bool) (density : list R) : R := Rsum (filter test density).

Lemma cumsum_length l : forall a, List.length (cumsum a l) = List.length l.
Proof. induction l; intro a0; cbn; auto. Qed.
Lemma cumsum_nth l : forall a i, (i < List.length l)%nat -> nth i (cumsum a l) 0 = a + Rsum (firstn (S i) l).
Proof.
  induction l as [|x l IH]; intros a i H; [cbn in H; lia|]. cbn [cumsum]. destruct i as [|i].
  - cbn [nth firstn]. rewrite Rsum_cons, Rsum_nil. lra.
  - cbn [nth]. change (firstn (S (S i)) (x :: l)) with (x :: firstn (S i) l). rewrite IH by (cbn in H; lia).
    rewrite Rsum_cons. lra.
Qed.
Lemma last_nth {A} (l : list A) d : List.last l d = nth (List.length l - 1) l d.
Proof.
  induction l as [|x [|y l] IH]; [reflexivity|reflexivity|]. change (List.last (x :: y :: l) d) with (List.last (y :: l) d).
  rewrite IH. cbn [List.length]. replace (S (S (List.length l)) - 1)%nat with (S (List.length l)) by lia.
  replace (S (List.length l) - 1)%nat with (List.length l) by lia. reflexivity.
Qed.
Lemma cumsum_last l : l <> [] -> List.last (cumsum 0 l) 0 = Rsum l.
Proof.
  intro H. assert (0 < List.length l)%nat by (destruct l; [contradiction|cbn; lia]).
  rewrite last_nth, cumsum_length, cumsum_nth by lia. replace (S (List.length l - 1)) with (List.length l) by lia.
  rewrite firstn_all. lra.
Qed.
Lemma csd_nth l i : (i < List.length l)%nat -> nth i (csd l) 0 = Rsum (firstn (S i) l) / Rsum l.
Proof.
  intro H. unfold csd. rewrite (nth_indep _ _ (0 / List.last (cumsum 0 l) 0))
    by (rewrite map_length, cumsum_length; exact H).
  rewrite (map_nth (fun c => c / List.last (cumsum 0 l) 0)). rewrite cumsum_nth by exact H.
  rewrite cumsum_last by (destruct l; [cbn in H; lia|discriminate]). f_equal. lra.
Qed.

(** A filter by a test that only holds on a prefix. *)
Lemma filter_prefix {A} (f : A -> bool) (l : list A) (d : A) :
  (forall i j, (i <= j < List.length l)%nat -> f (nth j l d) = true -> f (nth i l d) = true) ->
  exists k, (k <= List.length l)%nat /\ filter f l = firstn k l /\
    (forall i, (i < k)%nat -> f (nth i l d) = true) /\
    ((k < List.length l)%nat -> f (nth k l d) = false).
Proof.
  induction l as [|x l IH]; intro M.
  - exists 0%nat. cbn. repeat split; auto; intros; lia.
  - destruct (f x) eqn:Fx.
    + destruct IH as (k & K & E & T & N).
      { intros i j H Fj. apply (M (S i) (S j)); [cbn [List.length]; lia|exact Fj]. }
      exists (S k). cbn [filter firstn List.length]. rewrite Fx, E. repeat split; [lia| |].
      * intros [|i] H; [exact Fx|]. apply T. lia.
      * intro H. apply N. lia.
    + exists 0%nat. cbn [firstn List.length]. repeat split; [lia| |intros; lia|intros _; exact Fx].
      cbn [filter]. rewrite Fx. assert (Z : forall y, In y l -> f y = false).
      { intros y I. destruct (In_nth _ _ d I) as (j & J & <-). destruct (f (nth j l d)) eqn:Fj; [|reflexivity].
        specialize (M 0%nat (S j) ltac:(cbn [List.length]; lia) Fj). cbn in M. congruence. }
      clear IH M. induction l as [|y l IH]; [reflexivity|]. cbn [filter]. rewrite (Z y) by (left; reflexivity).
      apply IH. intros z I. apply Z. right; exact I.
Qed.
Lemma firstn_sum_mono l i j : Forall (fun x => 0 <= x) l -> (i <= j)%nat -> Rsum (firstn i l) <= Rsum (firstn j l).
Proof.
  intros P H. revert i j H. induction P as [|x l Px P IH]; intros i j H.
  - rewrite !firstn_nil. lra.
  - destruct i as [|i]; [|destruct j as [|j]; [lia|]].
    + cbn [firstn]. rewrite Rsum_nil. apply Rsum_nonneg. apply Forall_forall. intros y I.
      assert (J : In y (x :: l)) by (rewrite <- (firstn_skipn j (x :: l)); apply in_or_app; left; exact I).
      destruct J as [<-|J]; [exact Px|]. rewrite Forall_forall in P. exact (P y J).
    + cbn [firstn]. rewrite !Rsum_cons. specialize (IH i j ltac:(lia)). lra.
Qed.

(** Where the level sits in the decreasing list: [k] cells are kept. *)
Lemma contour_at s p : s <> [] -> Forall (fun x => 0 <= x) s -> 0 < Rsum s ->
  exists k, (k <= List.length s)%nat /\ contour s p = nth (pred k) s 0 /\
    ((0 < k)%nat -> Rsum (firstn k s) <= p * Rsum s) /\
    ((k < List.length s)%nat -> p * Rsum s < Rsum (firstn (S k) s)) .
Proof.
  intros N P S.
  assert (L : List.length (combine s (csd s)) = List.length s).
  { rewrite combine_length. unfold csd. rewrite map_length, cumsum_length. lia. }
  assert (NT : forall i, (i < List.length s)%nat -> nth i (combine s (csd s)) (0, 0) = (nth i s 0, Rsum (firstn (Datatypes.S i) s) / Rsum s)).
  { intros i H. rewrite combine_nth by (unfold csd; rewrite map_length, cumsum_length; reflexivity).
    f_equal. apply csd_nth. exact H. }
  destruct (filter_prefix (fun dc => Rleb (snd dc) p) (combine s (csd s)) (0, 0)) as (k & K & E & T & F).
  { intros i j H Fj. rewrite L in H. rewrite NT in * by lia. cbn [snd] in *.
    destruct (Rleb_spec (Rsum (firstn (Datatypes.S j) s) / Rsum s) p) as [G|G]; [|discriminate].
    destruct (Rleb_spec (Rsum (firstn (Datatypes.S i) s) / Rsum s) p) as [G'|G']; [reflexivity|]. exfalso. apply G'.
    refine (Rle_trans _ _ _ _ G). apply Rmult_le_compat_r; [left; apply Rinv_0_lt_compat; exact S|].
    apply firstn_sum_mono; [exact P|lia]. }
  rewrite L in *. exists k. split; [exact K|]. split; [|split].
  - unfold contour. rewrite E. rewrite <- firstn_map.
    replace (map fst (combine s (csd s))) with s.
    2:{ assert (LL : List.length s = List.length (csd s)) by (unfold csd; rewrite map_length, cumsum_length; reflexivity).
        clear - LL. revert LL. generalize (csd s). induction s as [|x s IH]; intros [|c cs] H; cbn in *; try lia; [reflexivity|].
        f_equal. apply IH. lia. }
    destruct k as [|k]; [destruct s; [contradiction|reflexivity]|].
    destruct s as [|x s]; [contradiction|].
    change (firstn (Datatypes.S k) (x :: s)) with (x :: firstn k s). cbn [pred].
    rewrite last_nth. cbn [List.length]. rewrite firstn_length_le by (cbn in K; lia).
    replace (Datatypes.S k - 1)%nat with k by lia.
    destruct k as [|k]; [reflexivity|]. cbn [nth].
    assert (G : (k < List.length s)%nat) by (cbn in K; lia).
    rewrite (nth_indep _ x 0) by (rewrite firstn_length_le; lia).
    clear - G. revert k G. induction s as [|y s IH]; intros k G; [cbn in G; lia|]. destruct k; [reflexivity|].
    cbn [firstn nth]. apply IH. cbn in G; lia.
  - intro H. specialize (T (pred k) ltac:(lia)). rewrite NT in T by lia. cbn [snd] in T.
    destruct (Rleb_spec (Rsum (firstn (Datatypes.S (pred k)) s) / Rsum s) p) as [G|G]; [|discriminate].
    replace (Datatypes.S (pred k)) with k in G by lia.
    apply (Rmult_le_compat_r (Rsum s)) in G; [|lra]. unfold Rdiv in G. rewrite Rmult_assoc, Rinv_l, Rmult_1_r in G; lra.
  - intro H. specialize (F H). rewrite NT in F by lia. cbn [snd] in F.
    destruct (Rleb_spec (Rsum (firstn (Datatypes.S k) s) / Rsum s) p) as [G|G]; [discriminate|].
    apply Rnot_le_lt in G. apply (Rmult_lt_compat_r (Rsum s)) in G; [|lra].
    unfold Rdiv in G. rewrite Rmult_assoc, Rinv_l, Rmult_1_r in G; lra.
Qed.

Lemma desc_nth s : StronglySorted (fun a b => b <= a) s -> forall i j, (i <= j < List.length s)%nat -> nth j s 0 <= nth i s 0.
Proof.
  induction 1 as [|x s S IH F]; intros i j H; [cbn in H; lia|]. destruct i as [|i], j as [|j]; [cbn; lra| |lia|].
  - cbn [nth]. rewrite Forall_forall in F. apply F. apply nth_In. cbn in H; lia.
  - cbn [nth]. apply IH. cbn in H; lia.
Qed.
Lemma filter_firstn_all (f : R -> bool) s k :
  (forall i, (k <= i < List.length s)%nat -> f (nth i s 0) = false) -> filter f s = filter f (firstn k s).
Proof.
  revert k. induction s as [|x s IH]; intros k H; [rewrite firstn_nil; reflexivity|].
  destruct k as [|k].
  - cbn [firstn filter]. specialize (H 0%nat ltac:(cbn; lia)) as H0. cbn in H0. rewrite H0.
    rewrite (IH 0%nat); [reflexivity|]. intros i Hi. apply (H (S i)). cbn; lia.
  - cbn [firstn filter]. rewrite <- (IH k); [reflexivity|]. intros i Hi. apply (H (S i)). cbn; lia.
Qed.
Lemma filter_le_sum (f : R -> bool) l : Forall (fun x => 0 <= x) l -> Rsum (filter f l) <= Rsum l.
Proof.
  induction 1 as [|x l Px P IH]; [cbn; lra|]. cbn [filter]. destruct (f x); rewrite ?Rsum_cons; lra.
Qed.
Lemma filter_all_sum (f : R -> bool) l k : Forall (fun x => 0 <= x) l ->
  (forall i, (i < k)%nat -> (i < List.length l)%nat -> f (nth i l 0) = true) -> Rsum (firstn k l) <= Rsum (filter f l).
Proof.
  intros P. revert k. induction P as [|x l Px P IH]; intros k H; [rewrite firstn_nil; cbn; lra|].
  destruct k as [|k].
  - cbn [firstn]. rewrite Rsum_nil. apply Rsum_nonneg. apply Forall_forall. intros y I. apply filter_In in I. destruct I as [[<-|I] _]; [exact Px|].
    rewrite Forall_forall in P; auto.
  - cbn [firstn filter]. pose proof (H 0%nat ltac:(lia) ltac:(cbn; lia)) as H0. cbn [nth] in H0. rewrite H0, !Rsum_cons.
    specialize (IH k (fun i A B => H (S i) ltac:(lia) ltac:(cbn; lia))). lra.
Qed.
Lemma Forall_firstn' {A} (Q : A -> Prop) k l : Forall Q l -> Forall Q (firstn k l).
Proof. revert k. induction l; intros [|k] F; cbn; auto. inversion F; subst. constructor; auto. Qed.
Lemma SS_rev l : StronglySorted Rle l -> StronglySorted (fun a b => b <= a) (rev l).
Proof.
  induction 1 as [|x l S IH F]; [constructor|]. cbn [rev].
  assert (G : Forall (fun a => x <= a) (rev l)) by (apply Forall_rev; exact F). clear F S.
  induction (rev l) as [|y r IHr]; cbn; [repeat constructor|]. inversion IH; subst. inversion G; subst.
  constructor; [apply IHr; assumption|]. apply Forall_app. split; [assumption|]. constructor; auto.
Qed.
Lemma Permutation_filter {A} (f : A -> bool) l l' : Permutation l l' -> Permutation (filter f l) (filter f l').
Proof.
  induction 1 as [|x l l' H IH|x y l|l l' l'' H IH H' IH']; cbn; auto.
  - destruct (f x); auto.
  - destruct (f x), (f y); auto. apply perm_swap.
  - eapply Permutation_trans; eauto.
Qed.

(** For each requested probability p the contour is drawn at the density of one of the cells; the cells of higher
    density hold at most the share p of the total, and going down to any lower density that occurs would exceed it.
    The levels come out in ascending order. *)
Theorem C50_contours : forall sort density probs levels, sorts sort ->
  Forall (fun d => 0 <= d) density -> 0 < Rsum density -> find_hdi_contours sort density probs = Ok levels ->
  StronglySorted Rle levels /\
  exists chosen, Permutation levels (map chosen probs) /\
    (forall p q, p <= q -> chosen q <= chosen p) /\
    forall p, 0 <= p ->
      In (chosen p) density /\
      mass_where (Rltb (chosen p)) density <= p * Rsum density /\
      (forall v, In v density -> v < chosen p -> p * Rsum density < mass_where (Rleb v) density).
Proof.
  intros sort density probs levels HS P T E. unfold find_hdi_contours in E.
  destruct (rev (sort density)) as [|x s'] eqn:Es; [discriminate|]. injection E as <-.
  split; [apply HS|]. exists (contour (x :: s')). split; [apply HS|].
  assert (PM : Permutation (x :: s') density).
  { rewrite <- Es. transitivity (sort density); [symmetry; apply Permutation_rev|apply HS]. }
  assert (SD : StronglySorted (fun a b => b <= a) (x :: s')) by (rewrite <- Es; apply SS_rev; apply HS).
  set (s := x :: s') in *. assert (N : s <> []) by (unfold s; discriminate).
  assert (PS : Forall (fun d => 0 <= d) s).
  { rewrite Forall_forall in *. intros d I. apply P. apply (Permutation_in _ PM I). }
  assert (SS : Rsum s = Rsum density) by (apply Rsum_perm; exact PM).
  clearbody s. clear Es x s'. rewrite <- SS in T. split.
  - intros p q PQ. destruct (contour_at s p N PS T) as (k & K & -> & A & B).
    destruct (contour_at s q N PS T) as (k' & K' & -> & A' & B').
    assert (KK : (k <= k')%nat).
    { destruct (Nat.le_gt_cases k k') as [|G]; [assumption|]. specialize (A ltac:(lia)). specialize (B' ltac:(lia)).
      pose proof (firstn_sum_mono s (S k') k PS ltac:(lia)). nra. }
    assert (LN : (0 < List.length s)%nat) by (destruct s; [contradiction|cbn; lia]).
    apply desc_nth; [exact SD|]. lia.
  - intros p PP. destruct (contour_at s p N PS T) as (k & K & -> & A & B).
    assert (LN : (0 < List.length s)%nat) by (destruct s; [contradiction|cbn; lia]).
    assert (FM : forall f, mass_where f density = Rsum (filter f s)).
    { intro f. apply Rsum_perm. apply Permutation_filter. symmetry. exact PM. }
    split; [|split].
    + apply (Permutation_in _ PM). apply nth_In. lia.
    + rewrite FM, <- SS. rewrite (filter_firstn_all _ s (pred k)).
      2:{ intros i Hi. apply Rltb_false. apply desc_nth; [exact SD|lia]. }
      eapply Rle_trans; [apply filter_le_sum, Forall_firstn', PS|].
      destruct k as [|k]; [cbn [pred firstn]; rewrite Rsum_nil; nra|].
      eapply Rle_trans; [apply (firstn_sum_mono s (pred (S k)) (S k) PS); cbn; lia|]. apply A. lia.
    + intros v Iv Lt. rewrite FM, <- SS. apply (Permutation_in _ (Permutation_sym PM)) in Iv.
      destruct (In_nth _ _ 0 Iv) as (j & J & <-).
      assert (KJ : (k <= j)%nat).
      { destruct (Nat.le_gt_cases k j) as [|G]; [assumption|]. exfalso.
        pose proof (desc_nth s SD j (pred k) ltac:(lia)). lra. }
      eapply Rlt_le_trans; [apply B; lia|].
      eapply Rle_trans; [apply (firstn_sum_mono s (S k) (S j) PS); lia|].
      apply filter_all_sum; [exact PS|]. intros i Hi Hl. destruct (Rleb_spec (nth j s 0) (nth i s 0)) as [|G]; [reflexivity|].
      exfalso. apply G. apply desc_nth; [exact SD|lia].
Qed.

(** A one-line insertion sort meets the contract, and a grid of four cells with density 4, 3, 2, 1. *)
Fixpoint ins (x : R) (l : list R) : list R :=
  match l with [] => [x] | y :: r => if Rleb x y then x :: y :: r else y :: ins x r end.
Definition isort (l : list R) : list R := fold_right ins [] l.
Lemma Forall_ins (Q : R -> Prop) x l : Q x -> Forall Q l -> Forall Q (ins x l).
Proof. intros X F. induction F as [|z r Hz F IH]; cbn [ins]; [auto|]. destruct (Rleb x z); auto. Qed.
Lemma isort_sorts : sorts isort.
Proof.
  intro l. induction l as [|x l [IP IS]]; [split; constructor|]. cbn [isort fold_right]. fold (isort l). split.
  - transitivity (x :: isort l); [|constructor; exact IP]. clear. induction (isort l) as [|y r IH]; [reflexivity|].
    cbn [ins]. destruct (Rleb x y); [reflexivity|]. rewrite IH. apply perm_swap.
  - clear IP. induction (isort l) as [|y r IH]; [repeat constructor|]. cbn [ins]. inversion IS as [|? ? IS' F]; subst.
    destruct (Rleb_spec x y) as [H|H].
    + constructor; [exact IS|]. constructor; [exact H|]. eapply Forall_impl; [|exact F]. cbn; intros; lra.
    + constructor; [apply IH; exact IS'|]. apply Forall_ins; [lra|exact F].
Qed.
Example C50_applies : exists levels, find_hdi_contours isort [4; 3; 2; 1] [0.9; 0.5] = Ok levels.
Proof.
  unfold find_hdi_contours. destruct (rev (isort [4; 3; 2; 1])) as [|x s] eqn:E.
  - assert (P := proj1 (isort_sorts [4; 3; 2; 1])). apply (f_equal (@List.length R)) in E. rewrite rev_length in E.
    apply Permutation_length in P. rewrite P in E. discriminate.
  - eexists; reflexivity.
Qed.

(* ---------------- C45 ---------------- *)
Lemma Rabs_inv x d : Rabs x <= d -> - d <= x <= d.
Proof. unfold Rabs. destruct (Rcase_abs x); lra. Qed.
(** Two angles that differ by a whole number of turns. *)
Definition congruent (a b : R) : Prop := exists k : Z, a = b + 2 * IZR k * PI.

Lemma cos_turns x (k : Z) : cos (x + 2 * IZR k * PI) = cos x.
Proof.
  destruct k as [|p|p].
  - f_equal. lra.
  - replace (IZR (Z.pos p)) with (INR (Pos.to_nat p)) by (rewrite INR_IZR_INZ, positive_nat_Z; reflexivity).
    apply cos_period.
  - rewrite <- (cos_period (x + 2 * IZR (Z.neg p) * PI) (Pos.to_nat p)). f_equal.
    rewrite INR_IZR_INZ, positive_nat_Z. rewrite <- Pos2Z.opp_pos, opp_IZR. lra.
Qed.
Lemma sin_turns x (k : Z) : sin (x + 2 * IZR k * PI) = sin x.
Proof.
  rewrite <- (cos_shift (x + 2 * IZR k * PI)), <- (cos_shift x).
  rewrite <- (cos_turns (PI / 2 - x) (- k)). f_equal. rewrite opp_IZR. lra.
Qed.
Lemma cos_one x : cos x = 1 -> exists k : Z, x = 2 * IZR k * PI.
Proof.
  intro C. assert (S : sin x = 0).
  { pose proof (sin2_cos2 x) as E. rewrite C in E. unfold Rsqr in E. nra. }
  destruct (sin_eq_0_0 x S) as [k ->]. destruct (Z.Even_or_Odd k) as [[j ->]|[j ->]].
  - exists j. rewrite mult_IZR. lra.
  - exfalso. rewrite plus_IZR, mult_IZR in C. replace ((2 * IZR j + 1) * PI) with (PI + 2 * IZR j * PI) in C by lra.
    rewrite cos_turns, cos_PI in C. lra.
Qed.
Lemma same_angle s t : cos s = cos t -> sin s = sin t -> congruent s t.
Proof.
  intros C S. destruct (cos_one (s - t)) as [k K].
  - rewrite cos_minus, C, S. pose proof (sin2_cos2 t) as E. unfold Rsqr in E. lra.
  - exists k. lra.
Qed.
Lemma root_cos s c : c * c + s * s = 1 -> c <> 0 -> sqrt (1 + Rsqr (s / c)) = / Rabs c.
Proof.
  intros E C. replace (1 + Rsqr (s / c)) with (Rsqr (/ Rabs c)).
  - apply sqrt_Rsqr. left. apply Rinv_0_lt_compat, Rabs_pos_lt, C.
  - rewrite Rsqr_inv'. rewrite <- Rsqr_abs. unfold Rsqr.
    apply (Rmult_eq_reg_r (c * c)); [|nra]. field_simplify; [|exact C|exact C]. nra.
Qed.
Lemma arctan2_angle s c : c * c + s * s = 1 ->
  - PI < arctan2 s c <= PI /\ cos (arctan2 s c) = c /\ sin (arctan2 s c) = s.
Proof.
  intro E. pose proof PI_RGT_0 as P. unfold arctan2. pose proof (atan_bound (s / c)) as B.
  destruct (Rltb_spec 0 c) as [H|H].
  - split; [lra|]. rewrite cos_atan, sin_atan, root_cos by (auto; lra). rewrite Rabs_right by lra. split; field; lra.
  - destruct (Rltb_spec c 0) as [H'|H'].
    + assert (CA : cos (atan (s / c)) = - c).
      { rewrite cos_atan, root_cos by (auto; lra). rewrite Rabs_left by lra. field. lra. }
      assert (SA : sin (atan (s / c)) = - s).
      { rewrite sin_atan, root_cos by (auto; lra). rewrite Rabs_left by lra. field. lra. }
      destruct (Rltb_spec s 0) as [S|S].
      * assert (0 < atan (s / c)).
        { rewrite <- atan_0. apply atan_increasing. unfold Rdiv.
          replace (s * / c) with (- s * / (- c)) by (field; lra). apply Rmult_lt_0_compat; [lra|apply Rinv_0_lt_compat; lra]. }
        split; [lra|]. unfold Rminus. rewrite cos_plus, sin_plus, cos_neg, sin_neg, cos_PI, sin_PI, CA, SA. lra.
      * assert (atan (s / c) <= 0).
        { rewrite <- atan_0. destruct (Req_dec s 0) as [->|]; [unfold Rdiv; rewrite Rmult_0_l; lra|].
          left. apply atan_increasing. unfold Rdiv.
          assert (/ c < 0) by (apply Rinv_lt_0_compat; lra). nra. }
        split; [lra|]. rewrite cos_plus, sin_plus, cos_PI, sin_PI, CA, SA. lra.
    + assert (c = 0) by lra. subst c. assert (S : s * s = 1) by lra.
      destruct (Rltb_spec 0 s) as [S1|S1].
      * split; [lra|]. rewrite cos_PI2, sin_PI2. split; nra.
      * destruct (Rltb_spec s 0) as [S2|S2].
        -- split; [lra|]. rewrite cos_neg, sin_neg, cos_PI2, sin_PI2. split; nra.
        -- nra.
Qed.
Lemma wrap_spec t : exists w, wrap (Fin t) = Fin w /\ - PI < w <= PI /\ congruent w t.
Proof.
  exists (arctan2 (sin t) (cos t)). split; [reflexivity|].
  destruct (arctan2_angle (sin t) (cos t)) as (B & C & S).
  { pose proof (sin2_cos2 t) as E. unfold Rsqr in E. lra. }
  split; [exact B|]. apply same_angle; assumption.
Qed.

(** The interval of a frozen von Mises: each end point is the inherited end point of the centred distribution, moved by
    mu and wrapped into (-pi, pi]; the instance is left as it was. *)
Theorem C45_wrapped : forall inherited v m lo hi, vm_mu v = Some (Fin m) ->
  inherited (vm_set_mu v (Some (Fin 0))) = Ok (Fin lo, Fin hi) ->
  exists a b, vm_interval inherited None v = (v, Ok (Fin a, Fin b)) /\
    - PI < a <= PI /\ congruent a (lo + m) /\ - PI < b <= PI /\ congruent b (hi + m).
Proof.
  intros inherited [mu ka fr sc] m lo hi M E. cbn [vm_mu] in M. subst mu. unfold vm_interval. rewrite E.
  cbn [vm_mu vm_set_mu vm_kappa vm_frozen vm_scalar]. unfold warp_interval, fmt_apply. cbn [xadd].
  destruct (wrap_spec (lo + m)) as (a & -> & A1 & A2). destruct (wrap_spec (hi + m)) as (b & -> & B1 & B2).
  exists a, b. repeat split; auto; lra.
Qed.
(** An interval from 1 below to 3/2 above mu = 3 reaches over pi: its upper end is reported as 9/2 - 2 pi. *)
Example C45_example : forall ka, vm_interval (fun _ => Ok (Fin (-1), Fin (3 / 2))) None (mkVM (Some (Fin 3)) ka true true)
  = (mkVM (Some (Fin 3)) ka true true, Ok (Fin 2, Fin (9 / 2 - 2 * PI))).
Proof.
  intro ka. destruct (C45_wrapped (fun _ => Ok (Fin (-1), Fin (3 / 2))) (mkVM (Some (Fin 3)) ka true true) 3 (-1) (3 / 2) eq_refl eq_refl)
    as (a & b & -> & A & (j & Ja) & B & (k & Kb)).
  pose proof PI2_3_2. pose proof PI_4.
  assert (J : (-1 < j < 1)%Z) by (split; apply lt_IZR; nra). assert (j = 0)%Z as -> by lia.
  assert (HK : (-2 < k)%Z) by (apply lt_IZR; nra). assert (HK2 : (k < 0)%Z) by (apply lt_IZR; nra). assert (k = -1)%Z as -> by lia.
  replace a with 2 by lra. replace b with (9 / 2 - 2 * PI) by lra. reflexivity.
Qed.
(** The equal-tailed interval in particular: the end points are the quantiles of the centred distribution. *)
Theorem C45_eti : forall methods_of default_mass v m mass lo hi,
  vm_mu v = Some (Fin m) -> vm_frozen v = true -> vm_scalar v = true ->
  kind_of (methods_of (Some (Fin 0)) (vm_kappa v)) = Continuous ->
  m_ppf (methods_of (Some (Fin 0)) (vm_kappa v)) (Fin ((1 - mass) / 2)) = Fin lo ->
  m_ppf (methods_of (Some (Fin 0)) (vm_kappa v)) (Fin (1 - (1 - mass) / 2)) = Fin hi ->
  exists a b, vm_eti methods_of default_mass (Some (Fin mass)) None v = (v, Ok (Fin a, Fin b)) /\
    - PI < a <= PI /\ congruent a (lo + m) /\ - PI < b <= PI /\ congruent b (hi + m).
Proof.
  intros methods_of default_mass v m mass lo hi M F S K L H. unfold vm_eti.
  apply C45_wrapped; [exact M|]. unfold eti. cbn [vm_mu vm_set_mu vm_frozen vm_scalar vm_kappa negb]. rewrite F, S. cbn [negb].
  cbn [xsub xadd xneg xdiv]. rewrite Reqb_false by lra. rewrite K.
  replace (1 + - mass) with (1 - mass) by lra. rewrite L. cbn [xneg]. replace (1 + - ((1 - mass) / 2)) with (1 - (1 - mass) / 2) by lra.
  rewrite H. reflexivity.
Qed.
(** With a format, two roundings happen: each moves a number by at most [delta]. *)
Theorem C45_formatted : forall inherited f delta v m lo hi, vm_mu v = Some (Fin m) ->
  (forall x, exists y, f (Fin x) = Fin y /\ Rabs (y - x) <= delta) ->
  inherited (vm_set_mu v (Some (Fin 0))) = Ok (f (Fin lo), f (Fin hi)) ->
  exists a b, vm_interval inherited (Some f) v = (v, Ok (Fin a, Fin b)) /\
    Rabs a <= PI + delta /\ Rabs b <= PI + delta /\
    (exists a', congruent a' (lo + m) /\ Rabs (a - a') <= 2 * delta) /\
    (exists b', congruent b' (hi + m) /\ Rabs (b - b') <= 2 * delta).
Proof.
  intros inherited f delta v m lo hi M F E.
  destruct (F lo) as (lo' & El & Dl). destruct (F hi) as (hi' & Eh & Dh). rewrite El, Eh in E.
  destruct v as [mu ka fr sc]. cbn [vm_mu] in M. subst mu. unfold vm_interval. rewrite E.
  cbn [vm_mu vm_set_mu vm_kappa vm_frozen vm_scalar]. unfold warp_interval, fmt_apply. cbn [xadd].
  destruct (wrap_spec (lo' + m)) as (a & -> & A1 & [ka' A2]). destruct (wrap_spec (hi' + m)) as (b & -> & B1 & [kb B2]).
  destruct (F a) as (a1 & -> & Da). destruct (F b) as (b1 & -> & Db). exists a1, b1. split; [reflexivity|].
  apply Rabs_inv in Da. apply Rabs_inv in Db. apply Rabs_inv in Dl. apply Rabs_inv in Dh.
  split; [apply Rabs_le; lra|]. split; [apply Rabs_le; lra|]. split.
  - exists (lo + m + 2 * IZR ka' * PI). split; [exists ka'; reflexivity|]. apply Rabs_le. lra.
  - exists (hi + m + 2 * IZR kb * PI). split; [exists kb; reflexivity|]. apply Rabs_le. lra.
Qed.
(** An exception leaves the instance with mu = 0: asking an instance without parameters for its interval gives it a
    location, which later fits take as fixed by the user. *)
Theorem C45_exception_refuted : forall methods_of default_mass mass fmt,
  vm_eti methods_of default_mass mass fmt (mkVM None None false true)
    = (mkVM (Some (Fin 0)) None false true, Err ValueError).
Proof. reflexivity. Qed.

(** pi to four decimals, from the Taylor bound on cos. *)
Lemma PI_lower : 3.1415 < PI.
Proof.
  destruct (Rlt_le_dec 3.1415 PI) as [|H]; [assumption|]. exfalso. pose proof PI2_3_2 as L.
  assert (P : 0 < PI) by apply PI_RGT_0.
  pose proof (cos_bound (PI / 2) 2 ltac:(lra) ltac:(lra)) as [B _]. rewrite cos_PI2 in B.
  assert (A : 1.5 < PI / 2 <= 1.57075) by lra. clear L H P. set (a := PI / 2) in *. clearbody a.
  assert (E : cos_approx a (2 * 2 + 1) =
    1 - a ^ 2 / 2 + a ^ 4 / 24 - a ^ 6 / 720 + a ^ 8 / 40320 - a ^ 10 / 3628800).
  { unfold cos_approx, cos_term. cbn [Nat.mul Nat.add sum_f_R0]. 
    change (fact 0) with 1%nat. change (fact 2) with 2%nat. change (fact 4) with 24%nat. change (fact 6) with 720%nat.
    replace (INR (fact 8)) with 40320 by (rewrite INR_IZR_INZ; reflexivity).
    replace (INR (fact 10)) with 3628800 by (rewrite INR_IZR_INZ; vm_compute; reflexivity).
    rewrite !INR_IZR_INZ. cbn [Z.of_nat Pos.of_succ_nat Pos.succ]. field. }
  rewrite E in B. set (u := a * a). assert (U : 2.25 <= u <= 2.4672556) by (unfold u; nra).
  replace (a ^ 2) with u in B by (unfold u; ring). replace (a ^ 4) with (u * u) in B by (unfold u; ring).
  replace (a ^ 6) with (u * u * u) in B by (unfold u; ring). replace (a ^ 8) with (u * u * u * u) in B by (unfold u; ring).
  replace (a ^ 10) with (u * u * u * u * u) in B by (unfold u; ring). clearbody u. clear E A.
  set (w := 2.4672556 - u). assert (W : 0 <= w <= 0.22) by (unfold w; lra).
  replace u with (2.4672556 - w) in B by (unfold w; lra). clearbody w. clear U.
  assert (0 <= w * w <= 0.22 * w) by nra. assert (0 <= w * w * w <= 0.0484 * w) by nra.
  assert (0 <= w * w * w * w <= 0.0107 * w) by nra. assert (0 <= w * w * w * w * w <= 0.0024 * w) by nra.
  lra.
Qed.
(** Rounding to three decimals: the multiple of 1/1000 nearest to x. *)
Definition round3 (x : xr) : xr := match x with Fin r => Fin (IZR (Int_part (r * 1000 + / 2)) / 1000) | _ => x end.
Lemma PI_upper : PI < 3.142.
Proof.
  destruct (Rlt_le_dec PI 3.142) as [|H]; [assumption|]. exfalso.
  assert (C : 0 <= cos 1.571) by (apply cos_ge_0; lra).
  pose proof (cos_bound 1.571 2 ltac:(lra) ltac:(lra)) as [_ B].
  assert (E : cos_approx 1.571 (2 * (2 + 1)) <
    0).
  { unfold cos_approx, cos_term. cbn [Nat.mul Nat.add sum_f_R0].
    change (fact 0) with 1%nat. change (fact 2) with 2%nat. change (fact 4) with 24%nat. change (fact 6) with 720%nat.
    replace (INR (fact 8)) with 40320 by (rewrite INR_IZR_INZ; reflexivity).
    replace (INR (fact 10)) with 3628800 by (rewrite INR_IZR_INZ; vm_compute; reflexivity).
    replace (INR (fact 12)) with 479001600.
    2:{ change (fact 12) with (12 * (11 * fact 10))%nat. rewrite !mult_INR.
        replace (INR (fact 10)) with 3628800 by (rewrite INR_IZR_INZ; vm_compute; reflexivity).
        rewrite !INR_IZR_INZ. cbn [Z.of_nat Pos.of_succ_nat Pos.succ]. lra. }
    rewrite !INR_IZR_INZ. cbn [Z.of_nat Pos.of_succ_nat Pos.succ]. lra. }
  lra.
Qed.
(** With fmt = ".3f" the end point of an interval that reaches pi is reported outside [-pi, pi]. *)
Theorem C45_format_refuted : exists v m lo hi a b, vm_mu v = Some (Fin m) /\ - PI < lo < 0 /\ 0 < hi < PI /\
  vm_interval (fun _ => Ok (Fin lo, Fin hi)) (Some round3) v = (v, Ok (a, Fin b)) /\ PI < b.
Proof.
  pose proof PI_lower as L. pose proof PI_upper as U.
  exists (mkVM (Some (Fin (PI - 1))) (Some (Fin 1)) true true), (PI - 1), (-1), 1. do 2 eexists.
  split; [reflexivity|]. split; [lra|]. split; [lra|]. unfold vm_interval, warp_interval, fmt_apply, vm_set_mu.
  cbn [vm_mu vm_kappa vm_frozen vm_scalar xadd]. split; [reflexivity|].
  replace (1 + (PI - 1)) with PI by lra. rewrite sin_PI, cos_PI. unfold arctan2.
  rewrite (Rltb_false 0 (-1)) by lra. rewrite (Rltb_true (-1) 0) by lra. rewrite (Rltb_false 0 0) by lra.
  unfold Rdiv at 2. rewrite Rmult_0_l, atan_0, Rplus_0_l.
  assert (E : Int_part (PI * 1000 + / 2) = 3142%Z).
  { unfold Int_part. rewrite <- (tech_up (PI * 1000 + / 2) 3143); [reflexivity|lra|lra]. }
  rewrite E. lra.
Qed.

Print Assumptions C45_format_refuted.
Print Assumptions C50_contours.
Print Assumptions C44_density.
Print Assumptions C44_exact.
