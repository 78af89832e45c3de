(** C20-C25: survival functions, equal tailed and highest density intervals, moments by letter, grids, end points. *)
From Coq Require Import List Bool String Ascii ZArith Reals Lra Lia Permutation Sorted.
From Verif Require Import Base XR LawModel LawSpec LawProofs.
Import ListNotations.
Open Scope R_scope.

(* ------------------------------------------------------------------ C20 *)
(** sf, logcdf and logsf are the survival function and the logarithms. *)
Theorem C20_survival : forall d F, lawful d F -> forall x, number x ->
  sf d x = Fin (1 - F x) /\ logcdf d x = xlog (Fin (F x)) /\ logsf d x = xlog (Fin (1 - F x)) /\ 0 <= 1 - F x <= 1.
Proof.
  intros d F L x Hx. unfold logsf, logcdf, sf. rewrite (l_cdf _ _ L x Hx).
  replace (xsub (Fin 1) (Fin (F x))) with (Fin (1 - F x)) by (cbn; f_equal; ring).
  repeat split; pose proof (F_range L x Hx); lra.
Qed.
Theorem C20_survival_decreases : forall d F, lawful d F -> forall x y sx sy,
  xle x y -> sf d x = Fin sx -> sf d y = Fin sy -> sy <= sx.
Proof.
  intros d F L x y sx sy H Hx Hy. destruct (xle_number _ _ H) as [Nx Ny].
  destruct (C20_survival d F L x Nx) as (Ex & _). destruct (C20_survival d F L y Ny) as (Ey & _).
  rewrite Ex in Hx. rewrite Ey in Hy. inversion Hx; inversion Hy; subst. pose proof (l_mono _ _ L x y H). lra.
Qed.
(** isf(q) is the smallest x whose survival probability is at most q, for every q in [0, 1). *)
Theorem C20_isf_inverts : forall d F, lawful d F -> forall q, 0 <= q < 1 ->
  number (isf d (Fin q)) /\
  forall x s, number x -> sf d x = Fin s -> (xle (isf d (Fin q)) x <-> s <= q).
Proof.
  intros d F L q Hq. unfold isf.
  replace (xsub (Fin 1) (Fin q)) with (Fin (1 - q)) by (cbn; f_equal; ring).
  assert (H1 : 0 < 1 - q <= 1) by lra. split; [apply (ppf_number L); auto|].
  intros x s Hx Hs. destruct (C20_survival d F L x Hx) as (Ex & _). rewrite Ex in Hs. inversion Hs; subst.
  rewrite (ppf_gal L _ x H1 Hx). lra.
Qed.
(** For a continuous distribution sf(isf(q)) = q. *)
Theorem C20_isf_exact : forall d F, lawful d F -> kind_of d = Continuous -> forall q, 0 < q < 1 ->
  sf d (isf d (Fin q)) = Fin q.
Proof.
  intros d F L K q Hq. unfold isf.
  replace (xsub (Fin 1) (Fin q)) with (Fin (1 - q)) by (cbn; f_equal; ring).
  assert (N : number (m_ppf d (Fin (1 - q)))) by (apply (ppf_number L); lra).
  destruct (C20_survival d F L _ N) as (E & _). rewrite E. f_equal.
  rewrite (l_cont _ _ L K) by lra. ring.
Qed.
Example C20_example : lawful unif unif_F /\ lawful (die 6) (die_F 6) /\
  sf (die 6) (Fin 2) = Fin (2 / 3) /\ isf (die 6) (Fin (2 / 3)) = Fin 2 /\ isf unif (Fin (1 / 4)) = Fin (3 / 4).
Proof.
  split; [apply unif_lawful|]. split; [apply die_lawful; lia|]. split; [|split].
  - cbn. rewrite (Rfloor_IZR 2). f_equal. pose proof (clip01_cases (2 / 6)). lra.
  - cbn. replace (1 + - (2 / 3)) with (1 / 3) by field. rewrite !Rleb_true by lra. cbn. f_equal.
    replace (1 / 3 * 6) with (IZR 2) by (simpl; field). unfold Rceil. rewrite <- opp_IZR, Rfloor_IZR, opp_IZR. lra.
  - cbn. rewrite !Rleb_true by lra. cbn. f_equal. field.
Qed.

(* ------------------------------------------------------------------ C21 *)
Lemma py_int_whole z : py_int (Fin (IZR z)) = Ok (Fin (IZR z)).
Proof.
  unfold py_int, np_int64. do 2 f_equal. unfold truncate.
  assert (E : forall y, IZR (Int_part (IZR y)) = IZR y) by (intro; apply Rfloor_IZR).
  destruct (Rltb_spec (IZR z) 0); [rewrite <- (opp_IZR z), E, opp_IZR; ring|apply E].
Qed.

(** For every mass in (0, 1) eti returns an ordered interval that has at least the requested probability, at most
    (1 - mass) / 2 of it on either side, and exactly the requested probability for continuous distributions. *)
Theorem C21_covers : forall d F, lawful d F -> forall default mass, 0 < mass < 1 ->
  exists lo hi, eti true true true d default (Some (Fin mass)) None = Ok (lo, hi) /\
    xle lo hi /\
    below (kind_of d) F lo <= (1 - mass) / 2 /\
    1 - F hi <= (1 - mass) / 2 /\
    between (kind_of d) F lo hi >= mass /\
    (kind_of d = Continuous -> between (kind_of d) F lo hi = mass).
Proof.
  intros d F L df mass Hm.
  set (t := (1 - mass) / 2). assert (Ht : 0 < t < 1 / 2) by (unfold t; lra).
  assert (E : exists lo hi, eti true true true d df (Some (Fin mass)) None = Ok (lo, hi) /\
                lo = m_ppf d (Fin t) /\ hi = m_ppf d (Fin (1 - t))).
  { exists (m_ppf d (Fin t)), (m_ppf d (Fin (1 - t))). split; [|auto]. unfold eti. cbn [negb].
    replace (xdiv (xsub (Fin 1) (Fin mass)) (Fin 2)) with (Fin t)
      by (cbn; rewrite Reqb_false by lra; f_equal; unfold t; field).
    replace (xsub (Fin 1) (Fin t)) with (Fin (1 - t)) by (cbn; f_equal; ring).
    destruct (kind_of d) eqn:K; [|reflexivity].
    destruct (ppf_whole L t K ltac:(lra)) as [z1 E1]. destruct (ppf_whole L (1 - t) K ltac:(lra)) as [z2 E2].
    rewrite E1, E2, !py_int_whole. reflexivity. }
  destruct E as (lo & hi & Ee & -> & ->).
  assert (B1 : below (kind_of d) F (m_ppf d (Fin t)) <= t) by (apply (below_ppf L); lra).
  assert (B2 : 1 - t <= F (m_ppf d (Fin (1 - t)))) by (apply (ppf_reaches L); lra).
  exists (m_ppf d (Fin t)), (m_ppf d (Fin (1 - t))). repeat split; auto.
  - apply (ppf_mono L); lra.
  - fold t. lra.
  - unfold between. replace mass with (1 - t - t) by (unfold t; field). lra.
  - intro K. unfold between, below. rewrite K, !(l_cont _ _ L K) by lra. unfold t. field.
Qed.

(** A larger mass gives an interval that contains the one for a smaller mass. *)
Theorem C21_nested : forall d F, lawful d F -> forall default m1 m2 l1 u1 l2 u2, 0 < m1 -> m1 <= m2 -> m2 < 1 ->
  eti true true true d default (Some (Fin m1)) None = Ok (l1, u1) ->
  eti true true true d default (Some (Fin m2)) None = Ok (l2, u2) ->
  xle l2 l1 /\ xle u1 u2.
Proof.
  intros d F L df m1 m2 l1 u1 l2 u2 H1 H2 H3.
  assert (E : forall m l u, 0 < m < 1 -> eti true true true d df (Some (Fin m)) None = Ok (l, u) ->
    l = m_ppf d (Fin ((1 - m) / 2)) /\ u = m_ppf d (Fin (1 - (1 - m) / 2))).
  { intros m l u Hm. unfold eti. cbn [negb].
    replace (xdiv (xsub (Fin 1) (Fin m)) (Fin 2)) with (Fin ((1 - m) / 2))
      by (cbn; rewrite Reqb_false by lra; f_equal; field).
    replace (xsub (Fin 1) (Fin ((1 - m) / 2))) with (Fin (1 - (1 - m) / 2)) by (cbn; f_equal; ring).
    destruct (kind_of d) eqn:K.
    - destruct (ppf_whole L ((1 - m) / 2) K ltac:(lra)) as [z1 E1].
      destruct (ppf_whole L (1 - (1 - m) / 2) K ltac:(lra)) as [z2 E2].
      rewrite E1, E2, !py_int_whole. cbn [bind]. intro H. inversion H. auto.
    - intro H. inversion H. auto. }
  intros A B. apply E in A; [|lra]. apply E in B; [|lra]. destruct A as [-> ->], B as [-> ->].
  split; apply (ppf_mono L); lra.
Qed.

(** Without a mass the configured default is used; the format plays no role for discrete distributions. *)
Theorem C21_default : forall name_ok frozen scalar d default fmt,
  eti name_ok frozen scalar d default None fmt = eti name_ok frozen scalar d default (Some default) fmt.
Proof. reflexivity. Qed.
Theorem C21_format_irrelevant_for_discrete : forall name_ok frozen scalar d default mass fmt, kind_of d = Discrete ->
  eti name_ok frozen scalar d default mass fmt = eti name_ok frozen scalar d default mass None.
Proof. intros. unfold eti. rewrite H. destruct name_ok, frozen, scalar; reflexivity. Qed.

(** Undefined distributions, non scalar parameters and Categorical are rejected. *)
Theorem C21_rejected : forall name_ok frozen scalar d default mass fmt,
  name_ok = false \/ frozen = false \/ scalar = false ->
  eti name_ok frozen scalar d default mass fmt = Err ValueError.
Proof. intros n f s * [-> | [-> | ->]]; unfold eti; try destruct n; try destruct f; reflexivity. Qed.

(** The mass itself is not checked: a negative mass gives an interval whose ends are swapped. *)
Theorem C21_mass_checked_refuted :
  ~ (forall d F, lawful d F -> forall default mass lo hi,
       eti true true true d default (Some (Fin mass)) None = Ok (lo, hi) -> 0 < mass < 1).
Proof.
  intro H. specialize (H unif unif_F unif_lawful (Fin 1) (- (1 / 2)) (Fin (3 / 4)) (Fin (1 / 4))).
  enough (0 < - (1 / 2) < 1) by lra. apply H. unfold eti. cbn.
  rewrite Reqb_false by lra. cbn. replace ((1 + - - (1 / 2)) / 2) with (3 / 4) by field.
  rewrite !Rleb_true by lra. cbn. do 2 f_equal. f_equal. field.
Qed.

(** With the default format (two decimals) the interval of a continuous distribution can lose all its mass. *)
Definition two_decimals (x : xr) : xr := match x with Fin r => Fin (Rfloor (100 * r + / 2) / 100) | _ => x end.
(** With two decimals both ends of the interval of a narrow continuous distribution are the same number, so the reported interval has no mass. *)
Theorem C21_default_format_refuted :
  ~ (forall d F, lawful d F -> forall default mass lo hi, 0 < mass < 1 ->
       eti true true true d default (Some (Fin mass)) (Some two_decimals) = Ok (lo, hi) ->
       0 < between (kind_of d) F lo hi).
Proof.
  intro H.
  assert (E : eti true true true unif (Fin 1) (Some (Fin (1 / 1000))) (Some two_decimals) = Ok (Fin (1 / 2), Fin (1 / 2))).
  { unfold eti. cbn. rewrite Reqb_false by lra. cbn. rewrite !Rleb_true by lra. cbn.
    rewrite (Rfloor_unique _ 50) by lra. rewrite (Rfloor_unique _ 50) by lra. do 2 f_equal; f_equal; field. }
  specialize (H unif unif_F unif_lawful (Fin 1) (1 / 1000) _ _ ltac:(lra) E).
  unfold between, below in H. cbn in H. lra.
Qed.

Example C21_example : eti true true true (die 6) (Fin (94 / 100)) (Some (Fin (1 / 2))) None = Ok (Fin 2, Fin 5) /\
  between Discrete (die_F 6) (Fin 2) (Fin 5) = 2 / 3.
Proof.
  split.
  - unfold eti. cbn -[py_int]. rewrite Reqb_false by lra. cbn -[py_int]. rewrite !Rleb_true by lra. cbn -[py_int].
    assert (C : forall r z, IZR z - 1 < r <= IZR z -> Rceil r = IZR z).
    { intros r z Hr. unfold Rceil. rewrite (Rfloor_unique _ (- z)) by (rewrite opp_IZR; lra). rewrite opp_IZR. ring. }
    rewrite (C _ 2%Z) by lra. rewrite (C _ 5%Z) by lra. 
    change (Fin 2) with (Fin (IZR 2)). change (Fin 5) with (Fin (IZR 5)).
    rewrite !py_int_whole. reflexivity.
  - unfold between, below. cbn. replace (2 + - (1)) with (IZR 1) by (simpl; ring). rewrite !Rfloor_IZR.
    pose proof (clip01_cases (5 / 6)). pose proof (clip01_cases (1 / 6)). lra.
Qed.

(* ------------------------------------------------------------------ C22 *)
Lemma fold_min_spec t : forall h, (fold_left Z.min t h <= h)%Z /\ (forall x, In x t -> (fold_left Z.min t h <= x)%Z) /\
  (fold_left Z.min t h = h \/ In (fold_left Z.min t h) t).
Proof.
  induction t as [|a t IH]; intro h; cbn; [repeat split; auto; [lia|tauto]|].
  destruct (IH (Z.min h a)) as (A & B & C). repeat split.
  - lia.
  - intros x [<-|Hx]; [lia|auto].
  - destruct C as [C|C]; [|auto]. rewrite C. destruct (Z.min_dec h a) as [->| ->]; auto.
Qed.
Lemma fold_max_spec t : forall h, (h <= fold_left Z.max t h)%Z /\ (forall x, In x t -> (x <= fold_left Z.max t h)%Z) /\
  (fold_left Z.max t h = h \/ In (fold_left Z.max t h) t).
Proof.
  induction t as [|a t IH]; intro h; cbn; [repeat split; auto; [lia|tauto]|].
  destruct (IH (Z.max h a)) as (A & B & C). repeat split.
  - lia.
  - intros x [<-|Hx]; [lia|auto].
  - destruct C as [C|C]; [|auto]. rewrite C. destruct (Z.max_dec h a) as [->| ->]; auto.
Qed.
Lemma zmin_list_spec l m : zmin_list l = Some m -> In m l /\ forall x, In x l -> (m <= x)%Z.
Proof.
  destruct l as [|h t]; cbn; [discriminate|]. intro H. inversion H; subst. destruct (fold_min_spec t h) as (A & B & C).
  split; [destruct C as [->|C]; auto|]. intros x [<-|Hx]; auto.
Qed.
Lemma zmax_list_spec l m : zmax_list l = Some m -> In m l /\ forall x, In x l -> (x <= m)%Z.
Proof.
  destruct l as [|h t]; cbn; [discriminate|]. intro H. inversion H; subst. destruct (fold_max_spec t h) as (A & B & C).
  split; [destruct C as [->|C]; auto|]. intros x [<-|Hx]; auto.
Qed.

(** The loop takes a prefix: every proper prefix of it (with what came before) is short of the mass. *)
Lemma hdi_take_spec mass : forall l acc, exists pre post, l = pre ++ post /\ hdi_take mass acc l = map fst pre /\
  (post <> [] -> mass <= acc + total pre) /\
  (l <> [] -> exists body last, pre = body ++ [last] /\ (body <> [] -> acc + total body < mass)).
Proof.
  induction l as [|[v p] l IH]; intro acc; [exists [], []; cbn; repeat split; auto; congruence|].
  cbn [hdi_take]. destruct (Rleb_spec mass (acc + p)) as [Hle|Hgt].
  - exists [(v, p)], l. cbn. repeat split; auto; [intros; lra|].
    intros _. exists [], (v, p). split; [reflexivity|congruence].
  - destruct (IH (acc + p)) as (pre & post & E & Ht & Hm & Hb). exists ((v, p) :: pre), post. cbn. rewrite E at 1.
    repeat split; auto.
    + f_equal. exact Ht.
    + intro Hp. specialize (Hm Hp). unfold total in *. cbn. lra.
    + intros _. destruct l as [|q l'].
      { destruct pre; [|discriminate]. exists [], (v, p). split; [reflexivity|congruence]. }
      destruct Hb as (body & lst & -> & Hb); [congruence|].
      exists ((v, p) :: body), lst. split; [reflexivity|]. intros _. unfold total in *. cbn.
      destruct body; [cbn; lra|]. specialize (Hb ltac:(congruence)). cbn in *. lra.
Qed.

Lemma total_app a b : total (a ++ b) = total a + total b.
Proof. unfold total. rewrite map_app. induction (map snd a); cbn; lra. Qed.
Lemma total_perm a b : Permutation a b -> total a = total b.
Proof. induction 1; unfold total in *; cbn in *; lra. Qed.
Lemma total_nonneg t : Forall (fun vp => 0 <= snd vp) t -> 0 <= total t.
Proof. induction 1; unfold total in *; cbn; lra. Qed.

(** The most probable k rows have at least the probability of any selection of k rows. *)
Lemma prefix_best : forall t, by_density t -> Forall (fun vp => 0 <= snd vp) t ->
  forall s, selection s t -> total s <= total (firstn (List.length s) t).
Proof.
  induction t as [|h t IH]; intros Hs Hp s [rest P].
  - apply Permutation_sym, Permutation_nil in P. destruct s; [cbn; lra|discriminate].
  - inversion Hs; subst. inversion Hp; subst.
    assert (Hin : In h (s ++ rest)) by (eapply Permutation_in; [apply Permutation_sym, P|left; auto]).
    destruct s as [|a s]; [cbn; unfold total; cbn; lra|].
    apply in_app_or in Hin. destruct Hin as [Hin|Hin].
    + (* h is selected *)
      apply in_split in Hin. destruct Hin as (x & y & E).
      assert (Ps : Permutation (a :: s) (h :: x ++ y)) by (rewrite E; apply Permutation_sym, Permutation_middle).
      assert (Sel : selection (x ++ y) t).
      { exists rest. apply Permutation_cons_inv with h. transitivity ((a :: s) ++ rest); [|exact P].
        change (h :: (x ++ y) ++ rest) with ((h :: x ++ y) ++ rest).
        apply Permutation_app_tail, Permutation_sym, Ps. }
      specialize (IH H1 H4 _ Sel). pose proof (Permutation_length Ps) as Len. cbn in Len. inversion Len as [Len'].
      rewrite (total_perm _ _ Ps). cbn [List.length firstn]. rewrite Len'. unfold total in *. cbn. lra.
    + (* h is not: replace the first selected row *)
      apply in_split in Hin. destruct Hin as (x & y & E). subst rest.
      assert (Ha : In a t \/ a = h).
      { assert (In a (h :: t)) by (eapply Permutation_in; [exact P|left; auto]). destruct H; auto. }
      assert (Sel : selection s t).
      { exists (a :: x ++ y). apply Permutation_cons_inv with h. transitivity ((a :: s) ++ x ++ h :: y); [|exact P].
        cbn. transitivity (h :: a :: s ++ x ++ y).
        - apply perm_skip. apply Permutation_sym, Permutation_cons_app. reflexivity.
        - transitivity (a :: h :: s ++ x ++ y); [apply perm_swap|]. apply perm_skip.
          rewrite !app_assoc. apply Permutation_cons_app. reflexivity. }
      specialize (IH H1 H4 _ Sel).
      assert (snd a <= snd h) by (destruct Ha as [Ha| ->]; [rewrite Forall_forall in H2; apply H2; auto|lra]).
      cbn [List.length firstn]. unfold total in *. cbn. lra.
Qed.

Lemma firstn_total_mono : forall t, Forall (fun vp => 0 <= snd vp) t -> forall n m, (n <= m)%nat ->
  total (firstn n t) <= total (firstn m t).
Proof.
  induction 1 as [|h t Hh Ht IH]; intros n m Hnm; [rewrite !firstn_nil; lra|].
  destruct n, m; try lia; cbn.
  - lra.
  - assert (0 <= total (firstn m t)) by (apply total_nonneg; clear -Ht; revert m; induction Ht; intros [|m]; cbn; auto).
    unfold total in *. cbn. lra.
  - specialize (IH n m ltac:(lia)). unfold total in *. cbn. lra.
Qed.

Lemma total_filter_le (P : Z * R -> bool) t : Forall (fun vp => 0 <= snd vp) t -> total (filter P t) <= total t.
Proof. induction 1 as [|h t Hh Ht IH]; cbn; [lra|]. destruct (P h); unfold total in *; cbn in *; lra. Qed.
Lemma total_inside_ge a b t s : Forall (fun vp => 0 <= snd vp) t -> selection s t ->
  (forall v, In v s -> (a <= fst v <= b)%Z) -> total s <= total (inside a b t).
Proof.
  intros Hp [rest P] H. assert (Pi : Permutation (inside a b (s ++ rest)) (inside a b t)).
  { unfold inside. clear -P. induction P; cbn; auto.
    - destruct (_ && _)%bool; auto.
    - destruct (_ && _)%bool, (_ && _)%bool; auto. apply perm_swap.
    - etransitivity; eauto. }
  rewrite <- (total_perm _ _ Pi). unfold inside. rewrite filter_app, total_app.
  assert (E : filter (fun vp => ((a <=? fst vp) && (fst vp <=? b))%Z%bool) s = s).
  { clear -H. induction s as [|x s IH]; cbn; [reflexivity|]. pose proof (H x (or_introl eq_refl)).
    replace ((a <=? fst x)%Z && (fst x <=? b)%Z)%bool with true.
    - f_equal. apply IH. intros; apply H; right; auto.
    - symmetry. apply andb_true_intro. rewrite !Z.leb_le. lia. }
  rewrite E.
  assert (0 <= total (filter (fun vp => ((a <=? fst vp) && (fst vp <=? b))%Z%bool) rest)).
  { apply total_nonneg. apply Forall_forall. intros x Hx. apply filter_In in Hx. rewrite Forall_forall in Hp. apply Hp.
    eapply Permutation_in; [exact P|]. apply in_or_app. tauto. }
  lra.
Qed.

(** The interval returned by discrete_hdi, for a table of any length listed by decreasing probability with ties in
    any order: its ends are values of the table, it has at least the requested mass, it contains the selected rows
    [pre], no row left out is more probable than a selected one, and no selection with at least that mass has fewer
    rows than [pre]. *)
Theorem C22_covers_with_fewest_points : forall mass table sorted,
  Permutation table sorted -> by_density sorted -> Forall (fun vp => 0 <= snd vp) table ->
  0 < mass <= total table ->
  exists a b pre, discrete_hdi mass sorted = Ok (a, b) /\
    In a (map fst table) /\ In b (map fst table) /\ (a <= b)%Z /\
    mass <= total (inside a b table) /\
    (exists rest, Permutation (pre ++ rest) table /\ forall x y, In x pre -> In y rest -> snd y <= snd x) /\
    mass <= total pre /\ (forall v, In v pre -> (a <= fst v <= b)%Z) /\
    In a (map fst pre) /\ In b (map fst pre) /\
    (forall s, selection s table -> mass <= total s -> (List.length pre <= List.length s)%nat).
Proof.
  intros mass table sorted P Hs Hp Hm.
  assert (Hp' : Forall (fun vp => 0 <= snd vp) sorted).
  { apply Forall_forall. intros x Hx. rewrite Forall_forall in Hp. apply Hp. eapply Permutation_in; [apply Permutation_sym, P|auto]. }
  assert (Hne : sorted <> []).
  { intros ->. apply Permutation_sym, Permutation_nil in P. subst. unfold total in Hm. cbn in Hm. lra. }
  destruct (hdi_take_spec mass sorted 0) as (pre & post & E & Ht & Hpost & Hlast).
  destruct (Hlast Hne) as (body & lst & Epre & Hbody).
  assert (Hpre : mass <= total pre).
  { destruct post as [|x post]; [rewrite app_nil_r in E; subst; rewrite <- (total_perm _ _ P); lra|].
    specialize (Hpost ltac:(congruence)). lra. }
  assert (Sel : selection pre table) by (exists post; rewrite <- E; apply Permutation_sym, P).
  unfold discrete_hdi. rewrite Ht.
  destruct (zmin_list (map fst pre)) as [a|] eqn:Ea; [|subst pre; destruct body; discriminate Ea].
  destruct (zmax_list (map fst pre)) as [b|] eqn:Eb; [|subst pre; destruct body; discriminate Eb].
  destruct (zmin_list_spec _ _ Ea) as [Ia La]. destruct (zmax_list_spec _ _ Eb) as [Ib Lb].
  assert (Hin : forall v, In v pre -> (a <= fst v <= b)%Z) by (intros v Hv; split; [apply La|apply Lb]; apply in_map; auto).
  assert (Incl : forall z, In z (map fst pre) -> In z (map fst table)).
  { intros z Hz. apply in_map_iff in Hz. destruct Hz as (v & <- & Hv). apply in_map. destruct Sel as [rest Pr].
    eapply Permutation_in; [exact Pr|]. apply in_or_app; auto. }
  exists a, b, pre. repeat match goal with |- _ /\ _ => split end; auto; try apply Hin; auto.
  - apply Rle_trans with (total pre); auto. apply total_inside_ge; auto.
  - exists post. split; [rewrite <- E; apply Permutation_sym, P|]. rewrite E in Hs. clear -Hs.
    induction pre as [|h pre IH]; cbn in *; [tauto|]. inversion Hs; subst. intros x y [<-|Hx] Hy; [|apply IH; auto].
    rewrite Forall_forall in H2. apply H2. apply in_or_app; auto.
  - intros s Hsel Hmass. destruct (Nat.le_gt_cases (List.length pre) (List.length s)) as [|Hlt]; [auto|exfalso].
    assert (Sel' : selection s sorted) by (destruct Hsel as [rest Pr]; exists rest; transitivity table; auto).
    pose proof (prefix_best sorted Hs Hp' s Sel') as B.
    rewrite Epre, app_length in Hlt. cbn in Hlt.
    assert (Bm : total (firstn (List.length s) sorted) <= total body).
    { replace body with (firstn (List.length body) sorted); [apply firstn_total_mono; auto; lia|].
      rewrite E, Epre, <- app_assoc, firstn_app, Nat.sub_diag, firstn_all, firstn_O, app_nil_r. reflexivity. }
    destruct body as [|x body]; [|specialize (Hbody ltac:(congruence)); lra].
    unfold total at 2 in Bm. cbn in Bm. lra.
Qed.

(** When the table has too little mass every row is selected. *)
Theorem C22_too_little_mass : forall mass table sorted a b,
  Permutation table sorted -> Forall (fun vp => 0 <= snd vp) table -> total table < mass ->
  discrete_hdi mass sorted = Ok (a, b) ->
  forall v, In v (map fst table) -> (a <= v <= b)%Z.
Proof.
  intros mass table sorted a b P Hp Hm H v Hv.
  destruct (hdi_take_spec mass sorted 0) as (pre & post & E & Ht & Hpost & _).
  destruct post as [|x post].
  - rewrite app_nil_r in E. subst pre. unfold discrete_hdi in H. rewrite Ht in H.
    destruct (zmin_list (map fst sorted)) as [a'|] eqn:Ea; [|discriminate].
    destruct (zmax_list (map fst sorted)) as [b'|] eqn:Eb; [|discriminate]. inversion H; subst.
    assert (In v (map fst sorted)) by (eapply Permutation_in; [apply Permutation_map, P|auto]).
    split; [apply (zmin_list_spec _ _ Ea)|apply (zmax_list_spec _ _ Eb)]; auto.
  - specialize (Hpost ltac:(congruence)). exfalso.
    assert (total sorted = total table) by (symmetry; apply total_perm, P).
    rewrite E, total_app in H0.
    assert (0 <= total (x :: post)).
    { apply total_nonneg. apply Forall_forall. intros y Hy. rewrite Forall_forall in Hp. apply Hp.
      eapply Permutation_in; [apply Permutation_sym, P|]. rewrite E. apply in_or_app; auto. }
    lra.
Qed.

Lemma arange_in a b z : In z (arange a b) <-> (a <= z < b)%Z.
Proof.
  unfold arange. rewrite in_map_iff. split.
  - intros (i & <- & Hi). apply in_seq in Hi. lia.
  - intro H. exists (Z.to_nat (z - a)). split; [lia|]. apply in_seq. lia.
Qed.
Lemma arange_length a b : List.length (arange a b) = Z.to_nat (b - a).
Proof. unfold arange. rewrite map_length, seq_length. reflexivity. Qed.
Lemma arange_nodup a b : NoDup (arange a b).
Proof. unfold arange. apply FinFun.Injective_map_NoDup; [intros x y; lia|apply seq_NoDup]. Qed.

(** For a unimodal probability mass function on consecutive integers the interval is the shortest one with the
    requested mass. *)
Theorem C22_unimodal_shortest : forall mass table sorted,
  Permutation table sorted -> by_density sorted -> Forall (fun vp => 0 <= snd vp) table ->
  contiguous table -> unimodal table -> 0 < mass <= total table ->
  exists a b, discrete_hdi mass sorted = Ok (a, b) /\ mass <= total (inside a b table) /\
    forall a' b', mass <= total (inside a' b' table) -> (b - a <= b' - a')%Z.
Proof.
  intros mass table sorted P Hs Hp [Hnd Hc] Hu Hm.
  destruct (C22_covers_with_fewest_points mass table sorted P Hs Hp Hm)
    as (a & b & pre & E & Ha & Hb & Hab & Hin & (rest & Pr & Hbest) & Hpre & Hbet & Hap & Hbp & Hmin).
  exists a, b. split; [exact E|]. split; [exact Hin|]. intros a' b' H'.
  apply in_map_iff in Hap. destruct Hap as (va & Ea & Iva). apply in_map_iff in Hbp. destruct Hbp as (vb & Eb & Ivb).
  assert (Inc : forall v, In v pre -> In v table).
  { intros v Hv. eapply Permutation_in; [exact Pr|]. apply in_or_app; auto. }
  assert (All : incl (arange a (b + 1)) (map fst pre)).
  { intros z Hz. apply arange_in in Hz.
    destruct (Z.eq_dec z a) as [->|Na]; [rewrite <- Ea; apply in_map; auto|].
    destruct (Z.eq_dec z b) as [->|Nb]; [rewrite <- Eb; apply in_map; auto|].
    destruct (Hc va vb z (Inc _ Iva) (Inc _ Ivb) ltac:(lia)) as [p Ip].
    assert (I2 : In (z, p) (pre ++ rest)) by (eapply Permutation_in; [apply Permutation_sym, Pr|exact Ip]).
    apply in_app_or in I2. destruct I2 as [I2|I2]; [change z with (fst (z, p)); apply in_map; auto|].
    exfalso. pose proof (Hbest _ _ Iva I2) as B1. pose proof (Hbest _ _ Ivb I2) as B2.
    pose proof (Hu va (z, p) vb (Inc _ Iva) Ip (Inc _ Ivb) ltac:(cbn; lia)) as U.
    cbn in *. unfold Rmin in U. destruct (Rle_dec _ _); lra. }
  pose proof (NoDup_incl_length (arange_nodup a (b + 1)) All) as L1. rewrite arange_length, map_length in L1.
  assert (Sel : selection (inside a' b' table) table).
  { exists (filter (fun vp => negb ((a' <=? fst vp)%Z && (fst vp <=? b')%Z)%bool) table). unfold inside.
    clear. induction table as [|h t IH]; cbn; [constructor|]. destruct (_ && _)%bool; cbn.
    - apply perm_skip, IH.
    - apply Permutation_sym, Permutation_cons_app, Permutation_sym, IH. }
  specialize (Hmin _ Sel H').
  assert (N2 : NoDup (map fst (inside a' b' table))).
  { unfold inside. clear -Hnd. induction table as [|h t IH]; cbn in *; [constructor|]. inversion Hnd; subst.
    destruct (_ && _)%bool; cbn; auto. constructor; auto. intro C. apply H1. apply in_map_iff in C.
    destruct C as (v & <- & Hv). apply filter_In in Hv. apply in_map. tauto. }
  assert (I2 : incl (map fst (inside a' b' table)) (arange a' (b' + 1))).
  { intros z Hz. apply in_map_iff in Hz. destruct Hz as (v & <- & Hv). apply filter_In in Hv. destruct Hv as [_ Hv].
    apply andb_prop in Hv. rewrite !Z.leb_le in Hv. apply arange_in. lia. }
  pose proof (NoDup_incl_length N2 I2) as L2. rewrite arange_length, map_length in L2.
  lia.
Qed.

Definition hdi_table : list (Z * R) := [(0%Z, 1 / 10); (1%Z, 4 / 10); (2%Z, 3 / 10); (3%Z, 2 / 10)].
Definition hdi_sorted : list (Z * R) := [(1%Z, 4 / 10); (2%Z, 3 / 10); (3%Z, 2 / 10); (0%Z, 1 / 10)].
Example C22_example : Permutation hdi_table hdi_sorted /\ by_density hdi_sorted /\
  Forall (fun vp => 0 <= snd vp) hdi_table /\ contiguous hdi_table /\ unimodal hdi_table /\ total hdi_table = 1 /\
  discrete_hdi (6 / 10) hdi_sorted = Ok (1%Z, 2%Z).
Proof.
  repeat match goal with |- _ /\ _ => split end.
  - unfold hdi_table, hdi_sorted. apply (Permutation_app_comm [(0%Z, 1 / 10)]).
  - unfold by_density, hdi_sorted. repeat (apply SSorted_cons || apply SSorted_nil || (apply Forall_cons; [cbn; lra|]) || apply Forall_nil).
  - unfold hdi_table. repeat (apply Forall_cons || apply Forall_nil); cbn; lra.
  - split.
    + cbn. repeat constructor; cbn; lia.
    + intros x y z Hx Hy Hz.
      assert (B : (0 <= z <= 3)%Z).
      { cbn in Hx, Hy. repeat match goal with H : _ \/ _ |- _ => destruct H as [<-|H] end; cbn in Hz; try tauto; lia. }
      assert (C : (z = 0 \/ z = 1 \/ z = 2 \/ z = 3)%Z) by lia.
      destruct C as [->|[->|[->| ->]]]; eexists; cbn; eauto 6.
  - intros x y z Hx Hy Hz Hl. unfold Rmin. cbn in Hx, Hy, Hz.
    repeat match goal with H : _ \/ _ |- _ => destruct H as [<-|H] end; cbn in Hl; try tauto; try lia;
      cbn; destruct (Rle_dec _ _); lra.
  - unfold total, hdi_table. cbn. lra.
  - unfold discrete_hdi, hdi_sorted. cbn [hdi_take]. rewrite Rleb_false by lra. rewrite Rleb_true by lra. reflexivity.
Qed.

(* ------------------------------------------------------------------ C23 *)
(** One value per letter, in the order of the letters. *)
Theorem C23_moments_in_order : forall A (fs : moment_methods A) types,
  (forall c, In c (list_ascii_of_string types) -> In c (map fst (moment_names fs))) ->
  exists l, moments fs types = Ok l /\ Forall2 (fun c v => In (c, v) (moment_names fs)) (list_ascii_of_string types) l.
Proof.
  intros A fs. induction types as [|c t IH]; intro H; cbn; [eauto|].
  destruct IH as (l & E & F); [intros; apply H; right; auto|].
  assert (M : exists v, moment_of fs c = Ok v /\ In (c, v) (moment_names fs)).
  { specialize (H c (or_introl eq_refl)). unfold moment_of. cbn in H.
    destruct H as [<-|[<-|[<-|[<-|[<-|[]]]]]]; cbn; eauto 8. }
  destruct M as (v & Ev & Iv). rewrite Ev. cbn. rewrite E. cbn. eauto.
Qed.
Theorem C23_other_letters_rejected : forall A (fs : moment_methods A) types c,
  In c (list_ascii_of_string types) -> ~ In c (map fst (moment_names fs)) -> moments fs types = Err ValueError.
Proof.
  intros A fs. induction types as [|a t IH]; intros c Hc Hn; cbn in Hc; [tauto|]. cbn [moments].
  assert (D : (exists v, moment_of fs a = Ok v) \/ moment_of fs a = Err ValueError).
  { unfold moment_of. repeat (destruct (Ascii.eqb _ _); [eauto|]). auto. }
  destruct D as [[v E]|E]; rewrite E; [|reflexivity]. cbn. destruct Hc as [<-|Hc]; [|rewrite (IH c Hc Hn); reflexivity].
  exfalso. apply Hn. unfold moment_of in E. cbn.
  destruct (Ascii.eqb_spec a "m"); [left; congruence|]. destruct (Ascii.eqb_spec a "d"); [right; left; congruence|].
  destruct (Ascii.eqb_spec a "v"); [do 2 right; left; congruence|].
  destruct (Ascii.eqb_spec a "s"); [do 3 right; left; congruence|].
  destruct (Ascii.eqb_spec a "k"); [do 4 right; left; congruence|discriminate].
Qed.
(** The names are unambiguous, so the order above determines the result. *)
Theorem C23_names_unambiguous : forall A (fs : moment_methods A) c v w,
  In (c, v) (moment_names fs) -> In (c, w) (moment_names fs) -> v = w.
Proof.
  intros A fs c v w Hv Hw. cbn in Hv, Hw.
  repeat match goal with H : _ \/ _ |- _ => destruct H as [H|H] end; try tauto; congruence.
Qed.
Theorem C23_lmoments_in_order : forall A (l1 l2 l3 l4 : A) types,
  (forall c, In c (list_ascii_of_string types) -> In c (map fst (lmoment_names l1 l2 l3 l4))) ->
  exists l, lmoments l1 l2 l3 l4 types = Ok l /\
    Forall2 (fun c v => In (c, v) (lmoment_names l1 l2 l3 l4)) (list_ascii_of_string types) l.
Proof.
  intros A l1 l2 l3 l4. induction types as [|c t IH]; intro H; cbn; [eauto|].
  destruct IH as (l & E & F); [intros; apply H; right; auto|].
  assert (M : exists v, lmoment_of l1 l2 l3 l4 c = Ok v /\ In (c, v) (lmoment_names l1 l2 l3 l4)).
  { specialize (H c (or_introl eq_refl)). unfold lmoment_of. cbn in H.
    destruct H as [<-|[<-|[<-|[<-|[]]]]]; cbn; eauto 8. }
  destruct M as (v & Ev & Iv). rewrite Ev. cbn. rewrite E. cbn. eauto.
Qed.
Theorem C23_lmoments_other_letters_rejected : forall A (l1 l2 l3 l4 : A) types c,
  In c (list_ascii_of_string types) -> ~ In c (map fst (lmoment_names l1 l2 l3 l4)) ->
  lmoments l1 l2 l3 l4 types = Err ValueError.
Proof.
  intros A l1 l2 l3 l4. induction types as [|a t IH]; intros c Hc Hn; cbn in Hc; [tauto|]. cbn [lmoments].
  assert (D : (exists v, lmoment_of l1 l2 l3 l4 a = Ok v) \/ lmoment_of l1 l2 l3 l4 a = Err ValueError).
  { unfold lmoment_of. repeat (destruct (Ascii.eqb _ _); [eauto|]). auto. }
  destruct D as [[v E]|E]; rewrite E; [|reflexivity]. cbn. destruct Hc as [<-|Hc]; [|rewrite (IH c Hc Hn); reflexivity].
  exfalso. apply Hn. unfold lmoment_of in E. cbn.
  destruct (Ascii.eqb_spec a "1"); [left; congruence|]. destruct (Ascii.eqb_spec a "2"); [right; left; congruence|].
  destruct (Ascii.eqb_spec a "3"); [do 2 right; left; congruence|].
  destruct (Ascii.eqb_spec a "4"); [do 3 right; left; congruence|discriminate].
Qed.
Example C23_example :
  moments {| f_mean := 1%Z; f_std := 2%Z; f_var := 4%Z; f_skew := 0%Z; f_kurt := 3%Z |} "dkmmv" = Ok [2; 3; 1; 1; 4]%Z /\
  moments {| f_mean := 1%Z; f_std := 2%Z; f_var := 4%Z; f_skew := 0%Z; f_kurt := 3%Z |} "mvx" = Err ValueError.
Proof. split; reflexivity. Qed.

(* ------------------------------------------------------------------ C24 *)
Lemma linspace_length a b n : List.length (linspace a b n) = n.
Proof. destruct n as [|[|n]]; [reflexivity|reflexivity|]. unfold linspace. rewrite map_length, seq_length. reflexivity. Qed.
Lemma linspace_nth a b n i d : (i < S (S n))%nat ->
  nth i (linspace a b (S (S n))) d = a + INR i * ((b - a) / INR (S n)).
Proof.
  intro H. cbn [linspace]. rewrite (nth_indep _ d (a + INR 0 * ((b - a) / INR (S n)))) by (rewrite map_length, seq_length; auto).
  rewrite (map_nth (fun i => a + INR i * ((b - a) / INR (S n)))). rewrite seq_nth by auto. reflexivity.
Qed.
Lemma INR_S_pos n : 0 < INR (S n).
Proof. apply lt_0_INR. lia. Qed.

(** Continuous grids: n points, the first is the lower end, the last the upper end, increasing. *)
Theorem C24_continuous_grid : forall a b n, a < b ->
  let g := continuous_xvals a b (S (S n)) in
  List.length g = S (S n) /\ hd 0 g = a /\ last g 0 = b /\
  (forall x, In x g -> a <= x <= b) /\
  (forall i j, (i < j < S (S n))%nat -> nth i g 0 < nth j g 0).
Proof.
  intros a b n Hab g. pose proof (INR_S_pos n) as Hp. unfold g, continuous_xvals.
  assert (Hs : 0 < (b - a) / INR (S n)) by (apply Rdiv_lt_0_compat; lra).
  assert (Len := linspace_length a b (S (S n))).
  assert (Hi : forall i j, (i < j < S (S n))%nat -> nth i (linspace a b (S (S n))) 0 < nth j (linspace a b (S (S n))) 0).
  { intros i j Hij. rewrite !linspace_nth by lia. apply Rplus_lt_compat_l, Rmult_lt_compat_r; [auto|apply lt_INR; lia]. }
  split; [auto|]. split; [cbn [linspace seq map hd]; cbn [INR]; ring|]. split.
  - assert (El : forall l : list R, last l 0 = nth (List.length l - 1) l 0).
    { clear. induction l as [|x l IH]; [reflexivity|]. destruct l as [|y l]; [reflexivity|].
      transitivity (last (y :: l) 0); [reflexivity|]. rewrite IH. cbn [List.length].
      replace (S (S (List.length l)) - 1)%nat with (S (S (List.length l) - 1)) by lia. reflexivity. }
    rewrite El, Len. replace (S (S n) - 1)%nat with (S n) by lia. rewrite linspace_nth by lia. field. lra.
  - split; [|exact Hi]. intros x Hx. apply (In_nth _ _ 0) in Hx. destruct Hx as (i & Hi' & <-). rewrite Len in Hi'.
    rewrite linspace_nth by lia. assert (0 <= INR i) by apply pos_INR.
    assert (INR i <= INR (S n)) by (apply le_INR; lia). split.
    + assert (0 <= INR i * ((b - a) / INR (S n))) by (apply Rmult_le_pos; lra). lra.
    + assert (INR i * ((b - a) / INR (S n)) <= INR (S n) * ((b - a) / INR (S n))) by (apply Rmult_le_compat_r; lra).
      replace (INR (S n) * ((b - a) / INR (S n))) with (b - a) in H1 by (field; lra). lra.
Qed.

Lemma int_of_IZR z : int_of (IZR z) = z.
Proof.
  unfold int_of. destruct (Rltb_spec (IZR z) 0).
  - rewrite <- opp_IZR. rewrite (Int_part_unique _ (- z)) by lra. lia.
  - apply Int_part_unique. lra.
Qed.

(** Discrete grids with at most n steps list every integer between the end points once, in order. *)
Theorem C24_discrete_grid : forall l u n, (l <= u <= l + Z.of_nat n)%Z ->
  let g := discrete_xvals (IZR l) (IZR u) n in
  (forall z, In z g <-> (l <= z <= u)%Z) /\ NoDup g /\ StronglySorted Z.lt g.
Proof.
  intros l u n H g. unfold g, discrete_xvals. rewrite !int_of_IZR.
  replace (u - l <=? Z.of_nat n)%Z with true by (symmetry; apply Z.leb_le; lia).
  split; [intro z; rewrite arange_in; lia|]. split; [apply arange_nodup|].
  unfold arange. generalize (Z.to_nat (u + 1 - l)) 0%nat. induction n0; intro k; cbn; [constructor|].
  constructor; [apply IHn0|]. apply Forall_forall. intros z Hz. apply in_map_iff in Hz. destruct Hz as (i & <- & Hi).
  apply in_seq in Hi. lia.
Qed.

Lemma Int_part_le a b : a <= b -> (Int_part a <= Int_part b)%Z.
Proof. intro H. apply le_IZR. apply (Rfloor_le a b H). Qed.

(** Longer ranges are sampled: still n integers in non decreasing order that start at the lower end. *)
Theorem C24_sampled_grid : forall l u n, (l + Z.of_nat (S (S n)) < u)%Z ->
  let g := discrete_xvals (IZR l) (IZR u) (S (S n)) in
  List.length g = S (S n) /\ hd 0%Z g = l /\ (forall z, In z g -> (l <= z <= u + 1)%Z) /\
  (forall i j, (i < j < S (S n))%nat -> (nth i g 0 <= nth j g 0)%Z).
Proof.
  intros l u n H g. unfold g, discrete_xvals. rewrite !int_of_IZR.
  replace (u - l <=? Z.of_nat (S (S n)))%Z with false by (symmetry; apply Z.leb_gt; lia).
  destruct (C24_continuous_grid (IZR l) (IZR (u + 1)) n) as (Len & Hh & _ & Hb & Hs); [apply IZR_lt; lia|].
  unfold continuous_xvals in *.
  split; [rewrite map_length; auto|]. split; [|split].
  - destruct (linspace (IZR l) (IZR (u + 1)) (S (S n))) as [|h t]; [discriminate|]. cbn in *. subst. apply Int_part_unique. lra.
  - intros z Hz. apply in_map_iff in Hz. destruct Hz as (x & <- & Hx). specialize (Hb x Hx). destruct Hb as [B1 B2].
    apply Int_part_le in B1. apply Int_part_le in B2. 
    rewrite (Int_part_unique (IZR l) l) in B1 by lra. rewrite (Int_part_unique (IZR (u + 1)) (u + 1)) in B2 by lra. lia.
  - intros i j Hij. rewrite (nth_indep _ 0%Z (Int_part 0)) by (rewrite map_length, Len; lia).
    rewrite (nth_indep (map _ _) 0%Z (Int_part 0)) by (rewrite map_length, Len; lia).
    rewrite !(map_nth Int_part). apply Int_part_le. left. apply Hs. auto.
Qed.

(** In that case the last point is beyond the upper end point of the support. *)
Theorem C24_inside_when_sampled_refuted :
  ~ (forall l u n z, (l <= u)%Z -> In z (discrete_xvals (IZR l) (IZR u) n) -> (l <= z <= u)%Z).
Proof.
  intro H. specialize (H 0%Z 5%Z 2%nat 6%Z ltac:(lia)). enough (0 <= 6 <= 5)%Z by lia. apply H.
  unfold discrete_xvals. rewrite !int_of_IZR. cbn [Z.of_nat Z.leb Z.sub]. cbn -[Int_part].
  right. left. apply Int_part_unique. replace (0 + 1 * ((6 - 0) / 1)) with 6 by field. lra.
Qed.

(** The end points used for plotting are finite and ordered for every distribution, and with "restricted" they have
    99.98% of the probability. *)
Theorem C24_endpoints : forall d F, lawful d F -> forall s, s = "restricted"%string \/ s = "full"%string ->
  number (fst (m_supp d)) -> number (snd (m_supp d)) ->
  exists l u, finite_endpoints d (Name s) = Ok (Fin l, Fin u) /\
    (s = "restricted"%string -> between (kind_of d) F (Fin l) (Fin u) >= 9998 / 10000) /\
    (s = "full"%string -> forall a b, m_supp d = (Fin a, Fin b) -> l = a /\ u = b).
Proof.
  intros d F L s Hs Nl Nu. destruct (m_supp d) as [sl su] eqn:Es. cbn in Nl, Nu.
  destruct (ppf_finite L (1 / 10000) ltac:(lra)) as [a Ea]. destruct (ppf_finite L (9999 / 10000) ltac:(lra)) as [b Eb].
  assert (B1 : below (kind_of d) F (Fin a) <= 1 / 10000) by (rewrite <- Ea; apply (below_ppf L); lra).
  assert (B2 : 9999 / 10000 <= F (Fin b)) by (rewrite <- Eb; apply (ppf_reaches L); lra).
  destruct Hs as [-> | ->]; unfold finite_endpoints; cbn [String.eqb Ascii.eqb Bool.eqb orb negb]; rewrite Es.
  - rewrite !orb_true_r, Ea, Eb. exists a, b. split; [reflexivity|]. split; [|discriminate].
    intros _. unfold between. lra.
  - rewrite !orb_false_r, Ea, Eb. destruct sl as [x| | |]; destruct su as [y| | |];
      try (exfalso; apply Nl; reflexivity); try (exfalso; apply Nu; reflexivity); cbn;
      eexists; eexists; (split; [reflexivity|]); (split; [discriminate|]); intros _ ? ? E; inversion E; auto.
Qed.
Theorem C24_unknown_support_rejected : forall d s, s <> "restricted"%string -> s <> "full"%string ->
  finite_endpoints d (Name s) = Err ValueError.
Proof.
  intros d s H1 H2. unfold finite_endpoints. apply String.eqb_neq in H1. apply String.eqb_neq in H2. rewrite H1, H2. reflexivity.
Qed.
Example C24_example : discrete_xvals (IZR (-1)) (IZR 2) 5 = [-1; 0; 1; 2]%Z /\
  finite_endpoints (die 6) (Name "full") = Ok (Fin 1, Fin 6).
Proof.
  split; [|reflexivity]. unfold discrete_xvals. rewrite !int_of_IZR. reflexivity.
Qed.

(* ------------------------------------------------------------------ C25 *)
(** An interval is accepted exactly when it lies inside the support and is not the whole of a bounded support. *)
Theorem C25_check_endpoints : forall sl su lower upper,
  number sl -> sl <> PInf -> number su -> su <> NInf -> number lower -> number upper ->
  (check_endpoints (sl, su) lower upper = Ok tt <->
     xle sl lower /\ xle upper su /\
     ~ (exists a b, sl = Fin a /\ su = Fin b /\ lower = sl /\ upper = su)) /\
  (check_endpoints (sl, su) lower upper <> Ok tt -> check_endpoints (sl, su) lower upper = Err ValueError).
Proof.
  intros sl su lo up N1 P1 N2 P2 N3 N4. unfold check_endpoints.
  assert (A : (xisfinite sl && xltb lo sl)%bool = false <-> xle sl lo).
  { destruct sl; cbn -[xltb]; try congruence; [apply xltb_false; auto|]. split; [intros _; apply xle_ninf; auto|auto]. }
  assert (B : (xisfinite su && xltb su up)%bool = false <-> xle up su).
  { destruct su; cbn -[xltb]; try congruence; [apply xltb_false; auto|]. split; [intros _; apply xle_pinf; auto|auto]. }
  assert (C : (xisfinite sl && xisfinite su && xeqb lo sl && xeqb up su)%bool = true <->
              (exists a b, sl = Fin a /\ su = Fin b /\ lo = sl /\ up = su)).
  { split.
    - destruct sl as [a| | |], su as [b| | |]; cbn; try discriminate.
      destruct lo as [x| | |]; cbn; try discriminate. destruct up as [y| | |]; cbn; try (rewrite andb_false_r; discriminate).
      destruct (Reqb_spec x a), (Reqb_spec y b); cbn; try discriminate. intros _. exists a, b. subst. auto.
    - intros (a & b & -> & -> & -> & ->). cbn. rewrite !Reqb_refl. reflexivity. }
  destruct (xisfinite sl && xltb lo sl)%bool; [split; [split; [discriminate|]|auto]; intros (H & _); apply A in H; discriminate|].
  destruct (xisfinite su && xltb su up)%bool; [split; [split; [discriminate|]|auto]; intros (_ & H & _); apply B in H; discriminate|].
  destruct (xisfinite sl && xisfinite su && xeqb lo sl && xeqb up su)%bool.
  - split; [split; [discriminate|]|auto]. intros (_ & _ & H). exfalso. apply H, C. reflexivity.
  - split; [|congruence]. split; [|auto]. intros _. repeat split; [apply A|apply B|]; auto. intro H. apply C in H. discriminate.
Qed.
(** The variant that reports a boolean instead of raising. *)
Theorem C25_check_endpoints_silent : forall sl su lower upper,
  check_endpoints_silent (sl, su) lower upper = true <-> xle sl lower /\ xle upper su.
Proof. intros. unfold check_endpoints_silent, xle. rewrite andb_true_iff. tauto. Qed.
Example C25_example :
  check_endpoints (Fin 0, PInf) (Fin 1) (Fin 5) = Ok tt /\ check_endpoints (Fin 0, PInf) (Fin (-1)) (Fin 5) = Err ValueError /\
  check_endpoints (Fin 0, Fin 1) (Fin 0) (Fin 1) = Err ValueError.
Proof.
  unfold check_endpoints. cbn. repeat split.
  - rewrite Rltb_false by lra. reflexivity.
  - rewrite Rltb_true by lra. reflexivity.
  - rewrite !Rltb_false by lra. rewrite !Reqb_refl. reflexivity.
Qed.

Print Assumptions C20_isf_inverts.
Print Assumptions C21_covers.
Print Assumptions C21_nested.
Print Assumptions C22_covers_with_fewest_points.
Print Assumptions C22_unimodal_shortest.
Print Assumptions C23_moments_in_order.
Print Assumptions C24_continuous_grid.
Print Assumptions C24_discrete_grid.
Print Assumptions C24_sampled_grid.
Print Assumptions C24_endpoints.
Print Assumptions C25_check_endpoints.
