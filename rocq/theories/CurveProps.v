(** Property theorems for what the plots draw: C76. *)
From Coq Require Import List Bool String Reals ZArith Lra Lia.
From Verif Require Import Base RLists XR LawModel LawSpec LawProofs LawProps SelProps ModModel CurveModel.
Import ListNotations.
Open Scope R_scope.

(* ---------------- specification ---------------- *)
(** The height drawn at [t] by a step line ("post"): that of the last point at or before [t]. *)
Definition drawn_at (points : list (xr * xr)) (t : R) (y : xr) : Prop :=
  exists before x after, points = (before ++ (Fin x, y) :: after)%list /\ x <= t /\
    match after with [] => True | (Fin x', _) :: _ => t < x' | _ => False end.
(** A function that, as the cdf of whole numbers, only changes at whole numbers. *)
Definition stepwise (f : xr -> xr) : Prop := forall t, f (Fin t) = f (Fin (IZR (Int_part t))).

(* ---------------- step lines ---------------- *)
Lemma arange_split a b z : (a <= z < b)%Z -> arange a b = (arange a z ++ z :: arange (z + 1) b)%list.
Proof.
  intro H. unfold arange. replace (Z.to_nat (b - a)) with (Z.to_nat (z - a) + S (Z.to_nat (b - (z + 1))))%nat by lia.
  rewrite seq_app, map_app. f_equal. cbn [seq map Nat.add]. f_equal; [lia|].
  replace (S (Z.to_nat (z - a)))%nat with (Z.to_nat (z - a) + 1)%nat by lia. generalize (Z.to_nat (b - (z + 1))). intro n.
  assert (G : forall n k, map (fun i => (a + Z.of_nat i)%Z) (seq (Z.to_nat (z - a) + 1 + k) n) = map (fun i => (z + 1 + Z.of_nat i)%Z) (seq k n)).
  { induction n0 as [|n0 IH]; intro k; cbn; [reflexivity|]. f_equal; [lia|]. 
    replace (S (Z.to_nat (z - a) + 1 + k)) with (Z.to_nat (z - a) + 1 + S k)%nat by lia. apply IH. }
  specialize (G n 0%nat). rewrite Nat.add_0_r in G. exact G.
Qed.
Lemma arange_parts a b : forall m1 z m2, arange a b = (m1 ++ z :: m2)%list -> (a <= z < b)%Z /\ m2 = arange (z + 1) b.
Proof.
  intros m1 z m2 H. assert (I : (a <= z < b)%Z) by (apply arange_in; rewrite H; apply in_or_app; right; left; reflexivity).
  split; [exact I|]. pose proof (arange_nodup a b) as N. pose proof (arange_split a b z I) as S. rewrite H in S.
  assert (Nz : NoDup (m1 ++ z :: m2)) by (rewrite <- H; exact N).
  assert (G : forall l1 l2 r1 r2, NoDup (l1 ++ z :: r1) -> (l1 ++ z :: r1)%list = (l2 ++ z :: r2)%list -> r1 = r2).
  { clear. induction l1 as [|x l1 IH]; intros [|y l2] r1 r2 N E; cbn in *.
    - congruence.
    - injection E as -> E. exfalso. inversion N; subst. apply H1. apply in_or_app. right. left. reflexivity.
    - injection E as -> E. exfalso. inversion N; subst. apply H1. apply in_or_app. right. left. reflexivity.
    - injection E as -> E. inversion N; subst. eapply IH; eauto. }
  eapply G; eauto.
Qed.
Definition on_integers (f : xr -> xr) (zs : list Z) : list (xr * xr) := map (fun z => (Fin (IZR z), f (Fin (IZR z)))) zs.
Lemma steps_exact f a b t : stepwise f -> (a < b)%Z -> IZR a <= t < IZR b ->
  forall y, drawn_at (on_integers f (arange a b)) t y <-> y = f (Fin t).
Proof.
  intros SW AB [TL TU] y. destruct (base_Int_part t) as [B1 B2].
  assert (ZA : (a <= Int_part t < b)%Z).
  { split; [|apply lt_IZR; lra]. apply Z.lt_succ_r. unfold Z.succ. apply lt_IZR. rewrite plus_IZR. lra. }
  split.
  - intros (l1 & x & l2 & E & X & A). unfold on_integers in E. apply map_eq_app in E. destruct E as (m1 & m & E & _ & E2).
    destruct m as [|z m2]; [discriminate|]. cbn [map] in E2. injection E2 as E3 E4 E5. subst x y l2.
    destruct (arange_parts _ _ _ _ _ E) as [I ->].
    assert (Zt : z = Int_part t).
    { symmetry. apply Int_part_unique. split; [lra|]. destruct (Z.eq_dec (z + 1) b) as [EQ|NE].
      - rewrite <- plus_IZR, EQ. exact TU.
      - rewrite (arange_split (z + 1) b (z + 1)) in A by lia. unfold arange in A at 1. replace (z + 1 - (z + 1))%Z with 0%Z in A by lia.
        cbn in A. rewrite plus_IZR in A. exact A. }
    rewrite (SW t), Zt. reflexivity.
  - intros ->. rewrite (SW t). exists (on_integers f (arange a (Int_part t))), (IZR (Int_part t)), (on_integers f (arange (Int_part t + 1) b)).
    split; [|split; [lra|]].
    + unfold on_integers. rewrite (arange_split a b (Int_part t) ZA), map_app. reflexivity.
    + destruct (Z.eq_dec (Int_part t + 1) b) as [EQ|NE].
      * unfold arange. rewrite EQ, Z.sub_diag. exact I.
      * rewrite (arange_split (Int_part t + 1) b (Int_part t + 1)) by lia. unfold arange at 1.
        replace (Int_part t + 1 - (Int_part t + 1))%Z with 0%Z by lia. cbn. rewrite plus_IZR. lra.
Qed.

Lemma last_app_single {A} (l : list A) x d : last (l ++ [x]) d = x.
Proof. apply last_last. Qed.
Lemma arange_ends l u : (l <= u)%Z -> exists r, arange l (u + 1) = (l :: r)%list /\ last (arange l (u + 1)) l = u.
Proof.
  intro H. pose proof (arange_split l (u + 1) l ltac:(lia)) as E. replace (arange l l) with (@nil Z) in E by (unfold arange; rewrite Z.sub_diag; reflexivity).
  cbn [app] in E. eexists. split; [exact E|].
  pose proof (arange_split l (u + 1) u ltac:(lia)) as E2. replace (arange (u + 1) (u + 1)) with (@nil Z) in E2 by (unfold arange; rewrite Z.sub_diag; reflexivity).
  rewrite E2. apply last_last.
Qed.
Lemma arange_extended l u : (l <= u)%Z -> arange (l - 1) (u + 2) = ((l - 1)%Z :: arange l (u + 1) ++ [(u + 1)%Z])%list.
Proof.
  intro H. rewrite (arange_split (l - 1) (u + 2) (l - 1)) by lia. replace (arange (l - 1) (l - 1)) with (@nil Z) by (unfold arange; rewrite Z.sub_diag; reflexivity).
  cbn [app]. f_equal. replace (l - 1 + 1)%Z with l by lia. rewrite (arange_split l (u + 2) (u + 1)) by lia.
  replace (u + 1 + 1)%Z with (u + 2)%Z by lia. replace (arange (u + 2) (u + 2)) with (@nil Z) by (unfold arange; rewrite Z.sub_diag; reflexivity). reflexivity.
Qed.
Lemma last_map {A B} (f : A -> B) l d : last (map f l) (f d) = f (last l d).
Proof. induction l as [|x [|y l] IH]; cbn in *; auto. Qed.
Lemma last_in {A} (l : list A) d : l <> [] -> In (last l d) l.
Proof. induction l as [|x [|y l] IH]; intro H; [congruence|left; reflexivity|right; apply IH; discriminate]. Qed.
Lemma last_indep {A} (l : list A) d d' : l <> [] -> last l d = last l d'.
Proof. induction l as [|x [|y l] IH]; intro H; [congruence|reflexivity|apply IH; discriminate]. Qed.
Lemma sampled_last l u n : (l + Z.of_nat (S (S n)) < u)%Z -> forall d, last (discrete_xvals (IZR l) (IZR u) (S (S n))) d = (u + 1)%Z.
Proof.
  intros H d. unfold discrete_xvals. rewrite !int_of_IZR.
  replace (u - l <=? Z.of_nat (S (S n)))%Z with false by (symmetry; apply Z.leb_gt; lia).
  destruct (C24_continuous_grid (IZR l) (IZR (u + 1)) n) as (Len & _ & La & _); [apply IZR_lt; lia|]. unfold continuous_xvals in *.
  set (g := linspace _ _ _) in *. assert (NE : g <> []) by (intro Q; rewrite Q in Len; discriminate).
  rewrite (last_indep (map Int_part g) d (Int_part 0)) by (intro Q; apply map_eq_nil in Q; contradiction).
  rewrite last_map, La. apply Int_part_unique. lra.
Qed.
Lemma discrete_steps f d support l u : kind_of d = Discrete -> finite_endpoints d support = Ok (Fin (IZR l), Fin (IZR u)) ->
  (l <= u <= l + 200)%Z -> plot_function f d support = Ok [Steps (on_integers f (arange (l - 1) (u + 2)))].
Proof.
  intros K E R. unfold plot_function, xvals. rewrite E. cbn [bind]. rewrite K. unfold discrete_xvals. rewrite !int_of_IZR.
  replace (u - l <=? Z.of_nat 200)%Z with true by (symmetry; apply Z.leb_le; lia).
  destruct (arange_ends l u) as (r & A & L); [lia|]. rewrite arange_extended by lia. rewrite A in *. cbn [map bind extended].
  change (Fin (IZR l) :: map (fun z : Z => Fin (IZR z)) r) with (map (fun z : Z => Fin (IZR z)) (l :: r)).
  change (last (map (fun z : Z => Fin (IZR z)) (l :: r)) (Fin (IZR l))) with (last (map (fun z : Z => Fin (IZR z)) (l :: r)) ((fun z : Z => Fin (IZR z)) l)).
  rewrite last_map, L. unfold graph, on_integers.
  match goal with |- Ok [Steps (map ?f ?a)] = Ok [Steps (map ?g ?b)] => assert (Q : a = map (fun z => Fin (IZR z)) b) end.
  { cbn [map app]. rewrite map_app. cbn [map]. rewrite minus_IZR, plus_IZR. reflexivity. }
  rewrite Q, map_map. reflexivity.
Qed.
(** For a discrete distribution with at most 201 values between the ends of the plot, the line of plot_cdf is the graph of the
    cdf: at every [t] from one below the lower end to two above the upper one, whole or not, the height drawn is cdf(t). The
    same for plot_sf. *)
Theorem C76_discrete_exact : forall d F support l u, kind_of d = Discrete -> lawful d F ->
  finite_endpoints d support = Ok (Fin (IZR l), Fin (IZR u)) -> (l <= u <= l + 200)%Z ->
  exists c s, plot_cdf d support = Ok [Steps c] /\ plot_sf d support = Ok [Steps s] /\
    forall t y, IZR l - 1 <= t < IZR u + 2 ->
      (drawn_at c t y <-> y = m_cdf d (Fin t)) /\ (drawn_at s t y <-> y = sf d (Fin t)).
Proof.
  intros d F support l u K LF E R. assert (SW : stepwise (m_cdf d)).
  { intro t. rewrite !(l_cdf _ _ LF) by discriminate. f_equal. apply (proj1 (l_disc _ _ LF K)). }
  do 2 eexists. split; [apply discrete_steps; eauto|]. split; [apply discrete_steps; eauto|].
  intros t y T. assert (T' : IZR (l - 1) <= t < IZR (u + 2)) by (rewrite minus_IZR, plus_IZR; exact T).
  split; apply steps_exact; auto; try lia. intro t'. unfold sf. rewrite (SW t'). reflexivity.
Qed.
(** FINDING. With more values the line of plot_cdf is too low at some whole number within the plot, for every cdf that
    increases at each of them. *)
Theorem C76_sampled_too_low_refuted : forall d support l u F, kind_of d = Discrete ->
  finite_endpoints d support = Ok (Fin (IZR l), Fin (IZR u)) -> (l + 200 < u)%Z ->
  (forall z, m_cdf d (Fin (IZR z)) = Fin (F z)) -> (forall z z', (l - 1 <= z < z')%Z -> (z' <= u)%Z -> F z < F z') ->
  exists c z, plot_cdf d support = Ok [Steps c] /\ (l <= z <= u)%Z /\
    forall y, drawn_at c (IZR z) y -> exists h, y = Fin h /\ h < F z.
Proof.
  intros d support l u F K E R HF HI. unfold plot_cdf, plot_function, xvals. rewrite E. cbn [bind]. rewrite K.
  pose proof (C24_sampled_grid l u 198) as G. cbv zeta in G. destruct G as (Len & Hd & Bnd & _); [cbn; lia|].
  change (S (S 198)) with 200%nat in *. set (g := discrete_xvals (IZR l) (IZR u) 200) in *.
  assert (M : exists z, (l <= z <= u)%Z /\ ~ In z g).
  { destruct (existsb (fun z => negb (existsb (Z.eqb z) g)) (arange l (u + 1))) eqn:X.
    - apply existsb_exists in X. destruct X as (z & Z1 & Z2). apply arange_in in Z1. exists z. split; [lia|]. intro I.
      apply negb_true_iff in Z2. assert (existsb (Z.eqb z) g = true) by (apply existsb_exists; exists z; split; [exact I|apply Z.eqb_refl]). congruence.
    - exfalso. assert (I : incl (arange l (u + 1)) g).
      { intros z Z1. assert (Q : negb (existsb (Z.eqb z) g) = false).
        { destruct (negb (existsb (Z.eqb z) g)) eqn:Q; [|reflexivity]. exfalso.
          assert (existsb (fun z => negb (existsb (Z.eqb z) g)) (arange l (u + 1)) = true) by (apply existsb_exists; exists z; auto). congruence. }
        apply negb_false_iff in Q. apply existsb_exists in Q. destruct Q as (w & W1 & W2). apply Z.eqb_eq in W2. subst w. exact W1. }
      pose proof (NoDup_incl_length (arange_nodup l (u + 1)) I) as L. rewrite arange_length, Len in L. lia. }
  destruct M as (z & Zr & Zn). destruct g as [|g0 r] eqn:Eg; [discriminate|]. cbn [map extended bind].
  eexists. exists z. split; [reflexivity|]. split; [exact Zr|]. intros y (l1 & x & l2 & P & X & _).
  assert (I : In (Fin x, y) (graph (m_cdf d) (xsub (Fin (IZR g0)) (Fin 1) :: ((Fin (IZR g0) :: map (fun z => Fin (IZR z)) r) ++
     [xadd (last (Fin (IZR g0) :: map (fun z => Fin (IZR z)) r) (Fin (IZR g0))) (Fin 1)])))).
  { rewrite P. apply in_or_app. right. left. reflexivity. }
  clear P. unfold graph in I. apply in_map_iff in I. destruct I as (x0 & Q & I). injection Q as -> <-.
  cbn in Hd. subst g0.
  change (Fin (IZR l) :: map (fun z => Fin (IZR z)) r) with (map (fun z => Fin (IZR z)) (l :: r)) in I.
  assert (W : exists w, x = IZR w /\ w <> z /\ (l - 1 <= w)%Z).
  { cbn [In] in I. destruct I as [I|I].
    - cbn in I. injection I as <-. exists (l - 1)%Z. rewrite minus_IZR. split; [lra|lia].
    - apply in_app_iff in I. destruct I as [I|[I|[]]].
      + apply in_map_iff in I. destruct I as (w & Q & I). injection Q as <-. exists w. split; [reflexivity|].
        specialize (Bnd w I). split; [intros ->; contradiction|lia].
      + change (Fin (IZR l)) with ((fun z => Fin (IZR z)) l) in I. rewrite last_map in I. cbn in I. injection I as <-.
        exists (last (l :: r) l + 1)%Z. rewrite plus_IZR. split; [reflexivity|].
        pose proof (sampled_last l u 198 ltac:(lia) l) as LU. fold g in LU. rewrite Eg in LU. rewrite LU. lia. }
  destruct W as (w & -> & Wn & Wl). apply le_IZR in X. exists (F w). split; [apply HF|]. apply HI; lia.
Qed.

Lemma graph_nth f xs i x : nth_error xs i = Some x -> nth_error (graph f xs) i = Some (x, f x).
Proof. intro H. unfold graph. rewrite nth_error_map, H. reflexivity. Qed.
Lemma graph_length f xs : List.length (graph f xs) = List.length xs.
Proof. apply map_length. Qed.
Lemma grid_nth a b i : (i < 1000)%nat -> nth_error (map Fin (linspace a b 1000)) i = Some (Fin (a + INR i / 999 * (b - a))).
Proof.
  intro I. rewrite nth_error_map. rewrite (nth_error_nth' _ 0) by (rewrite linspace_length; exact I).
  change 1000%nat with (S (S 998)). rewrite linspace_nth by exact I. cbn [option_map]. do 2 f_equal.
  replace (INR (S 998)) with 999 by (rewrite INR_IZR_INZ; reflexivity). field.
Qed.

(** For a continuous distribution the three curves are sampled at the same 1000 points, equally spaced from one end of the
    plot to the other, and each point is on the graph. *)
Theorem C76_continuous : forall d support l u, kind_of d = Continuous -> finite_endpoints d support = Ok (Fin l, Fin u) ->
  exists c s p, plot_cdf d support = Ok [Curve c] /\ plot_sf d support = Ok [Curve s] /\ plot_pdf Ordinary d support = Ok [Curve p] /\
    List.length c = 1000%nat /\ List.length s = 1000%nat /\ List.length p = 1000%nat /\
    forall i, (i < 1000)%nat -> let x := Fin (l + INR i / 999 * (u - l)) in
      nth_error c i = Some (x, m_cdf d x) /\ nth_error s i = Some (x, xsub (Fin 1) (m_cdf d x)) /\ nth_error p i = Some (x, m_pdf d x).
Proof.
  intros d support l u K E. unfold plot_cdf, plot_sf, plot_pdf, plot_function, xvals. rewrite E, K. cbn [bind].
  do 3 eexists. do 3 (split; [reflexivity|]). do 3 (split; [rewrite graph_length, map_length; apply linspace_length|]).
  intros i I. cbv zeta. split; [|split]; [apply (graph_nth (m_cdf d))|apply (graph_nth (sf d))|apply (graph_nth (m_pdf d))]; apply (grid_nth l u i I).
Qed.
(** The plot of the ppf has 1000 points, one for each multiple of 1/999, and that of the isf has the same heights in the
    opposite order. *)
Theorem C76_quantiles : forall d, exists p q, plot_ppf d = [Curve p] /\ plot_isf d = [Curve q] /\
  List.length p = 1000%nat /\ List.length q = 1000%nat /\
  forall i, (i < 1000)%nat -> nth_error p i = Some (Fin (INR i / 999), m_ppf d (Fin (INR i / 999))) /\
    nth_error q i = Some (Fin (INR i / 999), m_ppf d (Fin (INR (999 - i) / 999))).
Proof.
  intro d. unfold plot_ppf, plot_isf. do 2 eexists. do 2 (split; [reflexivity|]).
  do 2 (split; [rewrite graph_length, map_length; apply linspace_length|]). intros i I.
  pose proof (grid_nth 0 1 i I) as N. replace (0 + INR i / 999 * (1 - 0)) with (INR i / 999) in N by field.
  rewrite (graph_nth _ _ _ _ N), (graph_nth _ _ _ _ N). split; [reflexivity|]. unfold isf. cbn [xsub xadd xneg].
  rewrite minus_INR by lia. do 4 f_equal. replace (INR 999) with 999 by (rewrite INR_IZR_INZ; reflexivity). field.
Qed.

Lemma pick_min a b : pick xltb (Fin a) (Fin b) = Fin (Rmin a b).
Proof. unfold pick. cbn. destruct (Rltb_spec b a); unfold Rmin; destruct (Rle_dec a b); f_equal; lra. Qed.
Lemma pick_max a b : pick (fun x y => xltb y x) (Fin a) (Fin b) = Fin (Rmax a b).
Proof. unfold pick. cbn. destruct (Rltb_spec a b); unfold Rmax; destruct (Rle_dec a b); f_equal; lra. Qed.
Lemma clip_fin x lo hi : np_clip (Fin x) (Fin lo) (Fin hi) = Fin (Rmin (Rmax x lo) hi).
Proof.
  unfold np_clip, np_maximum, np_minimum. cbn [xisnan orb xltb]. destruct (Rltb_spec x lo) as [A|A]; cbn [xisnan orb xltb].
  - rewrite Rmax_right by lra. destruct (Rltb_spec hi lo) as [B|B]; [rewrite Rmin_right by lra|rewrite Rmin_left by lra]; reflexivity.
  - rewrite Rmax_left by lra. destruct (Rltb_spec hi x) as [B|B]; [rewrite Rmin_right by lra|rewrite Rmin_left by lra]; reflexivity.
Qed.
Lemma fold_pick_min l : forall a, exists m, fold_left (pick xltb) (map Fin l) (Fin a) = Fin m /\ In m (a :: l) /\ forall x, In x (a :: l) -> m <= x.
Proof.
  induction l as [|x l IH]; intro a; cbn [map fold_left].
  - exists a. split; [reflexivity|]. split; [left; reflexivity|]. intros x [<-|[]]. lra.
  - rewrite pick_min. destruct (IH (Rmin a x)) as (m & E & I & L). exists m. split; [exact E|]. split.
    + destruct I as [I|I]; [|right; right; exact I]. rewrite <- I. unfold Rmin. destruct (Rle_dec a x); [left|right; left]; reflexivity.
    + pose proof (Rmin_l a x). pose proof (Rmin_r a x). pose proof (L (Rmin a x) (or_introl eq_refl)).
      intros y [<-|[<-|Y]]; [lra|lra|]. apply L. right. exact Y.
Qed.
Lemma fold_pick_max l : forall a, exists m, fold_left (pick (fun x y => xltb y x)) (map Fin l) (Fin a) = Fin m /\ In m (a :: l) /\ forall x, In x (a :: l) -> x <= m.
Proof.
  induction l as [|x l IH]; intro a; cbn [map fold_left].
  - exists a. split; [reflexivity|]. split; [left; reflexivity|]. intros x [<-|[]]. lra.
  - rewrite pick_max. destruct (IH (Rmax a x)) as (m & E & I & L). exists m. split; [exact E|]. split.
    + destruct I as [I|I]; [|right; right; exact I]. rewrite <- I. unfold Rmax. destruct (Rle_dec a x); [right; left|left]; reflexivity.
    + pose proof (Rmax_l a x). pose proof (Rmax_r a x). pose proof (L (Rmax a x) (or_introl eq_refl)).
      intros y [<-|[<-|Y]]; [lra|lra|]. apply L. right. exact Y.
Qed.
(** For a discrete distribution there is one dot for each whole number between the ends of the plot, at the height of its
    mass, and the dotted line through them stays between the smallest and the largest of these masses, whatever the formula of
    the pmf gives between whole numbers; where that is within these limits, the line is at that height. *)
Theorem C76_mass : forall d support l u F, kind_of d = Discrete -> finite_endpoints d support = Ok (Fin (IZR l), Fin (IZR u)) ->
  (l <= u <= l + 200)%Z -> (forall x, m_pdf d (Fin x) = Fin (F x)) ->
  exists c p lo hi, plot_pdf Ordinary d support = Ok [Curve c; Dots p] /\
    (forall x y, In (x, y) p <-> exists z, (l <= z <= u)%Z /\ x = Fin (IZR z) /\ y = m_pdf d (Fin (IZR z))) /\
    (exists z, (l <= z <= u)%Z /\ F (IZR z) = lo) /\ (exists z, (l <= z <= u)%Z /\ F (IZR z) = hi) /\
    (forall z, (l <= z <= u)%Z -> lo <= F (IZR z) <= hi) /\ List.length c = 1000%nat /\
    forall i, (i < 1000)%nat -> let x := IZR l + INR i / 999 * (IZR u - IZR l) in
      nth_error c i = Some (Fin x, Fin (Rmin (Rmax (F x) lo) hi)).
Proof.
  intros d support l u F K E R HF. unfold plot_pdf, xvals. rewrite E, K. cbn [bind].
  unfold discrete_xvals. rewrite !int_of_IZR. replace (u - l <=? Z.of_nat 200)%Z with true by (symmetry; apply Z.leb_le; lia).
  assert (AI : forall z, In z (arange l (u + 1)) <-> (l <= z <= u)%Z) by (intro z; rewrite arange_in; lia).
  destruct (arange_ends l u) as (r & A & L); [lia|]. rewrite A in *. cbn [map].
  change (Fin (IZR l) :: map (fun z : Z => Fin (IZR z)) r) with (map (fun z : Z => Fin (IZR z)) (l :: r)).
  assert (LL : last (map (fun z : Z => Fin (IZR z)) (l :: r)) (Fin (IZR l)) = Fin (IZR u)).
  { change (Fin (IZR l)) with ((fun z : Z => Fin (IZR z)) l). rewrite last_map, L. reflexivity. }
  rewrite LL. unfold np_min, np_max, np_extreme. cbn [map].
  replace (map (m_pdf d) (map (fun z : Z => Fin (IZR z)) r)) with (map Fin (map (fun z => F (IZR z)) r))
    by (rewrite !map_map; apply map_ext; intro; symmetry; apply HF).
  rewrite HF. destruct (fold_pick_min (map (fun z => F (IZR z)) r) (F (IZR l))) as (lo & E1 & I1 & B1).
  destruct (fold_pick_max (map (fun z => F (IZR z)) r) (F (IZR l))) as (hi & E2 & I2 & B2). rewrite E1, E2. cbn [bind].
  change (F (IZR l) :: map (fun z => F (IZR z)) r) with (map (fun z => F (IZR z)) (l :: r)) in *.
  do 2 eexists. exists lo, hi. split; [reflexivity|]. split; [|split; [|split; [|split; [|split]]]].
  - intros x y. change (Fin (IZR l) :: map (fun z : Z => Fin (IZR z)) r) with (map (fun z : Z => Fin (IZR z)) (l :: r)). unfold graph. rewrite map_map, in_map_iff. split.
    + intros (z & Q & I). injection Q as <- <-. exists z. rewrite <- AI. auto.
    + intros (z & I & -> & ->). exists z. rewrite AI. auto.
  - apply in_map_iff in I1. destruct I1 as (z & Q & I). exists z. rewrite <- AI. auto.
  - apply in_map_iff in I2. destruct I2 as (z & Q & I). exists z. rewrite <- AI. auto.
  - intros z Hz. apply AI in Hz. split; [apply B1|apply B2]; apply in_map_iff; eauto.
  - rewrite graph_length, map_length. apply linspace_length.
  - intros i I. cbv zeta. rewrite (graph_nth _ _ _ _ (grid_nth (IZR l) (IZR u) i I)). rewrite HF. rewrite clip_fin. reflexivity.
Qed.
(** One mass that is nan makes the whole dotted line nan. *)
Theorem C76_nan_mass : forall d support l u z, kind_of d = Discrete -> finite_endpoints d support = Ok (Fin (IZR l), Fin (IZR u)) ->
  (l <= u <= l + 200)%Z -> (l <= z <= u)%Z -> m_pdf d (Fin (IZR z)) = NaN ->
  exists c p, plot_pdf Ordinary d support = Ok [Curve c; Dots p] /\ List.length c = 1000%nat /\ forall x y, In (x, y) c -> y = NaN.
Proof.
  intros d support l u z K E R Hz HF. unfold plot_pdf, xvals. rewrite E, K. cbn [bind].
  unfold discrete_xvals. rewrite !int_of_IZR. replace (u - l <=? Z.of_nat 200)%Z with true by (symmetry; apply Z.leb_le; lia).
  assert (AI : In z (arange l (u + 1))) by (rewrite arange_in; lia).
  destruct (arange_ends l u) as (r & A & L); [lia|]. rewrite A in *. cbn [map].
  change (Fin (IZR l) :: map (fun z : Z => Fin (IZR z)) r) with (map (fun z : Z => Fin (IZR z)) (l :: r)).
  assert (LL : last (map (fun z : Z => Fin (IZR z)) (l :: r)) (Fin (IZR l)) = Fin (IZR u)).
  { change (Fin (IZR l)) with ((fun z : Z => Fin (IZR z)) l). rewrite last_map, L. reflexivity. }
  rewrite LL. unfold np_min, np_max, np_extreme. cbn [map].
  assert (N0 : forall better xs, fold_left (pick better) xs NaN = NaN) by (intros better xs; induction xs as [|x xs IH]; [reflexivity|exact IH]).
  assert (N : forall better xs a, a = NaN \/ In NaN xs -> fold_left (pick better) xs a = NaN).
  { intros better xs. induction xs as [|x xs IH]; intros a [H|H]; cbn [fold_left]; [exact H|destruct H|subst a; apply N0|].
    apply IH. destruct H as [->|H]; [left; destruct a; reflexivity|right; exact H]. }
  assert (P : m_pdf d (Fin (IZR l)) = NaN \/ In NaN (map (m_pdf d) (map (fun z : Z => Fin (IZR z)) r))).
  { destruct AI as [->|I]; [left; exact HF|]. right. rewrite map_map. apply in_map_iff. exists z. auto. }
  rewrite !N by exact P. cbn [bind]. do 2 eexists. split; [reflexivity|]. split; [rewrite graph_length, map_length; apply linspace_length|].
  intros x y I. unfold graph in I. apply in_map_iff in I. destruct I as (x' & Q & _). injection Q as _ <-.
  unfold np_clip, np_minimum, np_maximum. cbn [xisnan orb]. rewrite !orb_true_r. reflexivity.
Qed.
(** The dots and lines of Categorical and Bernoulli: a dot and a vertical line for each value. *)
Theorem C76_stems : forall d support l u, kind_of d = Discrete -> finite_endpoints d support = Ok (Fin (IZR l), Fin (IZR u)) ->
  (l <= u <= l + 200)%Z -> exists p stems, plot_pdf Stems d support = Ok (Dots p :: stems) /\
    (forall x y, In (x, y) p <-> exists z, (l <= z <= u)%Z /\ x = Fin (IZR z) /\ y = m_pdf d (Fin (IZR z))) /\
    (forall s, In s stems <-> exists z, (l <= z <= u)%Z /\ s = Stem (Fin (IZR z)) (m_pdf d (Fin (IZR z)))).
Proof.
  intros d support l u K E R. unfold plot_pdf, xvals. rewrite E, K. cbn [bind].
  unfold discrete_xvals. rewrite !int_of_IZR. replace (u - l <=? Z.of_nat 200)%Z with true by (symmetry; apply Z.leb_le; lia).
  do 2 eexists. split; [reflexivity|].
  assert (AI : forall z, In z (arange l (u + 1)) <-> (l <= z <= u)%Z) by (intro z; rewrite arange_in; lia).
  split; intros; unfold graph; rewrite map_map, in_map_iff; split.
  - intros (z & Q & I). injection Q as <- <-. exists z. rewrite <- AI. auto.
  - intros (z & I & -> & ->). exists z. rewrite AI. auto.
  - intros (z & <- & I). exists z. rewrite <- AI. auto.
  - intros (z & I & ->). exists z. rewrite AI. auto.
Qed.

Lemma linspace_from a b n : a <= b -> exists r, linspace a b (S (S n)) = (a :: r)%list /\ forall x, In x (a :: r) -> a <= x.
Proof.
  intro AB. assert (B : forall x, In x (linspace a b (S (S n))) -> a <= x).
  { intros x I. apply (In_nth _ _ 0) in I. destruct I as (i & I & <-). rewrite linspace_length in I.
    rewrite linspace_nth by exact I. pose proof (pos_INR i).
    assert (0 <= (b - a) / INR (S n)) by (apply Rmult_le_pos; [lra|]; left; apply Rinv_0_lt_compat, lt_0_INR; lia).
    pose proof (Rmult_le_pos _ _ H H0). lra. }
  pose proof (linspace_nth a b n 0 0 ltac:(lia)) as N. pose proof (linspace_length a b (S (S n))) as L.
  destruct (linspace a b (S (S n))) as [|x r]; [discriminate|]. cbn [nth] in N. change (INR 0) with 0 in N. rewrite Rmult_0_l, Rplus_0_r in N.
  subst x. exists r. split; [reflexivity|exact B].
Qed.
(** A continuous Censored distribution: no point of the curve is at a bound, so the masses there do not show in it; the two
    marks are drawn, both or neither, and only if the plot reaches down to the lower bound. *)
Theorem C76_censored : forall base d support lo up a b, kind_of d = Continuous -> m_supp d = (lo, up) ->
  finite_endpoints d support = Ok (Fin a, Fin b) -> a <= b ->
  exists c, (forall x y, In (x, y) c -> x <> lo /\ x <> up /\ y = m_pdf d x) /\
    plot_pdf (OfCensored base) d support = Ok (Curve c :: if xleb (Fin a) lo
      then [Stem lo (xmul (base lo) (Fin 1.5)); Stem up (xmul (base up) (Fin 1.5))] else []).
Proof.
  intros base d support lo up a b K SU E AB. unfold plot_pdf, xvals. rewrite E, K, SU. cbn [bind].
  assert (H : exists r, continuous_xvals a b 1000 = (a :: r)%list /\ forall x, In x (a :: r) -> a <= x).
  { apply (linspace_from a b 998 AB). }
  destruct H as (r & G & B). rewrite G. cbn [map np_min np_extreme].
  destruct (fold_pick_min r a) as (m & M & I & Lm). unfold np_min, np_extreme. rewrite M. cbn [bind].
  assert (MA : m = a). { apply Rle_antisym; [apply Lm; left; reflexivity|apply B; exact I]. } subst m.
  eexists. split; [|reflexivity]. intros x y J. unfold graph in J. apply in_map_iff in J. destruct J as (x' & Q & J). injection Q as -> <-.
  apply filter_In in J. destruct J as [J J2]. apply filter_In in J. destruct J as [J J1].
  assert (N : forall w, negb (xeqb x w) = true -> x <> w).
  { intros w W ->. assert (exists v, w = Fin v) as (v & ->).
    { change (Fin a :: map Fin r)%list with (map Fin (a :: r)) in J. apply in_map_iff in J. destruct J as (v & <- & _). eauto. }
    cbn in W. rewrite Reqb_refl in W. discriminate. }
  auto.
Qed.

(** FINDING. With the support that is the default, the mark at the upper bound is missing whenever less than one in ten
    thousand is censored at the lower bound, however much is censored at the upper one. *)
Theorem C76_upper_unmarked_refuted : forall base F lower upper lo up, lawful base F -> kind_of base = Continuous ->
  m_supp (censored base lower upper) = (lo, up) -> xltb lo up = true -> F lo < 1 / 10000 ->
  exists c, plot_pdf (OfCensored (m_pdf base)) (censored base lower upper) (Name "restricted") = Ok [Curve c].
Proof.
  intros base F lower upper lo up LF K SU LU FL.
  assert (Kc : kind_of (censored base lower upper) = Continuous) by exact K.
  destruct (ppf_finite LF (1 / 10000) ltac:(lra)) as [p Ep]. destruct (ppf_finite LF (9999 / 10000) ltac:(lra)) as [q Eq].
  assert (Nlo : number lo) by (intros ->; discriminate). assert (Nup : number up) by (intros ->; destruct lo; discriminate).
  assert (P : xltb lo (Fin p) = true).
  { pose proof (proj2 (l_ppf _ _ LF (1 / 10000) ltac:(lra)) lo Nlo) as Q. rewrite Ep in Q.
    assert (NQ : ~ xle (Fin p) lo) by (intro Z; apply Q in Z; lra). destruct lo as [l| | |]; cbn; auto.
    - apply Rltb_true. destruct (Rlt_le_dec l p); [assumption|]. exfalso. apply NQ. apply xle_fin. lra.
    - exfalso. apply NQ. reflexivity. }
  assert (PQ : p <= q).
  { pose proof (proj2 (l_ppf _ _ LF (1 / 10000) ltac:(lra)) (Fin q) ltac:(discriminate)) as Q. rewrite Ep in Q. apply xle_fin, Q.
    pose proof (proj2 (l_ppf _ _ LF (9999 / 10000) ltac:(lra)) (Fin q) ltac:(discriminate)) as Q2. rewrite Eq in Q2.
    assert (9999 / 10000 <= F (Fin q)) by (apply Q2, xle_fin; lra). lra. }
  assert (CL : forall r, p <= r -> exists r', np_clip (Fin r) lo up = Fin r' /\ xltb lo (Fin r') = true /\ (forall s, r <= s -> forall s', np_clip (Fin s) lo up = Fin s' -> r' <= s')).
  { intros r PR. assert (LR : xltb lo (Fin r) = true) by (destruct lo; cbn in *; auto; apply Rltb_lt in P; apply Rltb_true; lra).
    assert (MX : forall s, r <= s -> np_maximum (Fin s) lo = Fin s).
    { intros s RS. unfold np_maximum. destruct lo as [l| | |]; cbn in *; try reflexivity; try discriminate; try congruence.
      apply Rltb_lt in LR. rewrite Rltb_false by lra. reflexivity. }
    unfold np_clip. rewrite (MX r) by lra. destruct up as [u| | |]; try (exfalso; apply Nup; reflexivity); try (destruct lo; discriminate).
    - unfold np_minimum at 1. cbn [xisnan orb xltb]. destruct (Rltb_spec u r) as [A|A].
      + exists u. split; [reflexivity|]. split; [exact LU|]. intros s RS s'. rewrite MX by exact RS. unfold np_minimum. cbn. destruct (Rltb_spec u s); intro Q; injection Q as <-; lra.
      + exists r. split; [reflexivity|]. split; [exact LR|]. intros s RS s'. rewrite MX by exact RS. unfold np_minimum. cbn. destruct (Rltb_spec u s); intro Q; injection Q as <-; lra.
    - exists r. split; [reflexivity|]. split; [exact LR|]. intros s RS s'. rewrite MX by exact RS. cbn. intro Q; injection Q as <-; lra. }
  assert (BD : c_bounds base lower upper = (lo, up)) by (unfold censored in SU; destruct (c_bounds base lower upper); exact SU).
  destruct (CL p ltac:(lra)) as (a & Ea & La & Ma). destruct (CL q PQ) as (b & Eb & _ & _).
  assert (AB : a <= b) by (apply (Ma q PQ b Eb)).
  assert (FE : finite_endpoints (censored base lower upper) (Name "restricted") = Ok (Fin a, Fin b)).
  { unfold finite_endpoints. rewrite SU. cbn [String.eqb negb orb]. 
    assert (PP : forall z, m_ppf (censored base lower upper) z = np_clip (m_ppf base z) lo up) by (intro z; unfold censored; rewrite BD; reflexivity).
    rewrite !PP, Ep, Eq, Ea, Eb. cbn. rewrite !orb_true_r. reflexivity. }
  destruct (C76_censored (m_pdf base) _ _ _ _ _ _ Kc SU FE AB) as (c & _ & Pl). exists c. rewrite Pl.
  replace (xleb (Fin a) lo) with false; [reflexivity|]. symmetry. destruct lo as [l| | |]; cbn in *; try reflexivity; try discriminate.
  unfold xleb. cbn. apply Rltb_lt in La. rewrite Rltb_false, Reqb_false by lra. reflexivity.
Qed.
(** A uniform distribution on (0, 1) censored at 3/4: a quarter of the probability is at 3/4, where nothing is drawn. *)
Example C76_upper_unmarked_example :
  (exists c, plot_pdf (OfCensored (m_pdf unif)) (censored unif NInf (Fin (3 / 4))) (Name "restricted") = Ok [Curve c]) /\
  m_pdf (censored unif NInf (Fin (3 / 4))) (Fin (3 / 4)) = Fin (1 / 4).
Proof.
  assert (B : c_bounds unif NInf (Fin (3 / 4)) = (Fin 0, Fin (3 / 4))).
  { unfold c_bounds, np_maximum, np_minimum. cbn [unif m_supp fst snd xisnan orb xltb]. rewrite Rltb_true by lra. reflexivity. }
  split.
  - apply (C76_upper_unmarked_refuted unif unif_F NInf (Fin (3 / 4)) (Fin 0) (Fin (3 / 4))).
    + apply unif_lawful.
    + reflexivity.
    + unfold censored. rewrite B. reflexivity.
    + cbn. apply Rltb_true. lra.
    + cbn. destruct (clip01_cases 0) as [[A C]|[[A C]|[A C]]]; lra.
  - unfold censored. rewrite B. cbn [m_pdf]. unfold c_logpdf. cbn [kind_of unif xeqb]. rewrite Reqb_refl. cbn [m_cdf unif_F].
    assert (C : clip01 (3 / 4) = 3 / 4) by (destruct (clip01_cases (3 / 4)) as [[A C]|[[A C]|[A C]]]; lra).
    change (m_cdf unif (Fin (3 / 4))) with (Fin (clip01 (3 / 4))). rewrite C. unfold xlog1p. cbn [xneg xadd].
    replace (1 + - (3 / 4)) with (1 / 4) by lra. unfold xlog. cbn.
    rewrite Rltb_true by lra. cbn [xexp]. rewrite exp_ln by lra. reflexivity.
Qed.
(** FINDING. The height of a mark is not the probability of the bound, nor on the scale of probabilities: for a uniform
    distribution on (0, 1) censored at 1/4 and 3/4 both are 1.5, for probabilities of 1/4. *)
Theorem C76_mark_height_refuted : let d := censored unif (Fin (1 / 4)) (Fin (3 / 4)) in
  (exists c, plot_pdf (OfCensored (m_pdf unif)) d (Name "full") = Ok [Curve c; Stem (Fin (1 / 4)) (Fin 1.5); Stem (Fin (3 / 4)) (Fin 1.5)]) /\
  m_cdf d (Fin (1 / 4)) = Fin (1 / 4) /\ sf unif (Fin (3 / 4)) = Fin (1 / 4).
Proof.
  assert (B : c_bounds unif (Fin (1 / 4)) (Fin (3 / 4)) = (Fin (1 / 4), Fin (3 / 4))).
  { unfold c_bounds, np_maximum, np_minimum. cbn [unif m_supp fst snd xisnan orb xltb]. rewrite !Rltb_true by lra. reflexivity. }
  assert (C1 : clip01 (1 / 4) = 1 / 4) by (destruct (clip01_cases (1 / 4)) as [[A C]|[[A C]|[A C]]]; lra).
  assert (C3 : clip01 (3 / 4) = 3 / 4) by (destruct (clip01_cases (3 / 4)) as [[A C]|[[A C]|[A C]]]; lra).
  cbv zeta. split; [|split].
  - destruct (C76_censored (m_pdf unif) (censored unif (Fin (1 / 4)) (Fin (3 / 4))) (Name "full") (Fin (1 / 4)) (Fin (3 / 4)) (1 / 4) (3 / 4)) as (c & _ & P).
    + reflexivity.
    + unfold censored. rewrite B. reflexivity.
    + unfold censored. rewrite B. reflexivity.
    + lra.
    + exists c. rewrite P. replace (xleb (Fin (1 / 4)) (Fin (1 / 4))) with true by (symmetry; apply xle_fin; lra).
      cbn [m_pdf unif unif_pdf]. rewrite !Rleb_true by lra. cbn. rewrite Rmult_1_l. reflexivity.
  - unfold censored. rewrite B. cbn [m_cdf]. unfold c_cdf. cbn [xltb]. rewrite !Rltb_false by lra. cbn. rewrite C1. reflexivity.
  - unfold sf. cbn. rewrite C3. f_equal. lra.
Qed.

(** The panel of Roulette and QuartileInt: what the plot of that kind draws by default and, for the pdf, one more dot on the
    axis at each end of the support that is finite. Any other kind of plot, such as "sf", draws nothing and is not an error. *)
Theorem C76_panel : forall s d, (forall shapes, plot_pdf s d (Name "restricted") = Ok shapes ->
    exists dots, representations s d "pdf" = Ok (shapes ++ dots) /\
      forall e, In e dots <-> exists b, (b = fst (m_supp d) \/ b = snd (m_supp d)) /\ xisfinite b = true /\ e = Dots [(b, Fin 0)]) /\
  representations s d "cdf" = plot_cdf d (Name "restricted") /\ representations s d "ppf" = Ok (plot_ppf d) /\
  forall kind, kind <> "pdf"%string -> kind <> "cdf"%string -> kind <> "ppf"%string -> representations s d kind = Ok [].
Proof.
  intros s d. split; [|split; [reflexivity|split; [reflexivity|]]].
  - intros shapes E. unfold representations. cbn [String.eqb Ascii.eqb Bool.eqb]. rewrite E. cbn [bind]. eexists. split; [reflexivity|].
    intro e. rewrite in_map_iff. split.
    + intros (b & <- & I). apply filter_In in I. destruct I as [[<-|[<-|[]]] F]; eauto.
    + intros (b & O & F & ->). exists b. split; [reflexivity|]. apply filter_In. split; [|exact F]. destruct O as [->| ->]; [left|right; left]; reflexivity.
  - intros kind P C Q. unfold representations. apply String.eqb_neq in P, C, Q. rewrite P, C, Q. reflexivity.
Qed.

(** A die with six faces: at 2.5 the line is at 2/6, and it is drawn from 0 to 8. *)
Example C76_die : exists c, plot_cdf (die 6) (Name "full") = Ok [Steps c] /\ drawn_at c (5 / 2) (Fin (2 / 6)) /\ forall y, drawn_at c (5 / 2) y -> y = Fin (2 / 6).
Proof.
  destruct (C76_discrete_exact (die 6) (die_F 6) (Name "full") 1 6 eq_refl (die_lawful 6 ltac:(lia)) eq_refl ltac:(lia)) as (c & s & E & _ & H).
  assert (V : m_cdf (die 6) (Fin (5 / 2)) = Fin (2 / 6)).
  { cbn. f_equal. replace (Rfloor (5 / 2)) with 2. { destruct (clip01_cases (2 / 6)) as [[A C]|[[A C]|[A C]]]; lra. }
    unfold Rfloor. rewrite (Int_part_unique (5 / 2) 2) by lra. reflexivity. }
  exists c. split; [exact E|]. split; [|intros y D]; [apply (proj1 (H (5 / 2) _ ltac:(lra)))|apply (proj1 (H (5 / 2) y ltac:(lra))) in D]; congruence.
Qed.
(** A die with 300 faces meets the hypotheses of the finding. *)
Example C76_die300 : exists c z, plot_cdf (die 300) (Name "full") = Ok [Steps c] /\ (1 <= z <= 300)%Z /\
  forall y, drawn_at c (IZR z) y -> exists h, y = Fin h /\ h < IZR z / 300.
Proof.
  assert (DF : forall z, (0 <= z <= 300)%Z -> die_F 300 (Fin (IZR z)) = IZR z / 300).
  { intros z Hz. cbn. unfold Rfloor. rewrite (Int_part_unique (IZR z) z) by lra. pose proof (IZR_le 0 z ltac:(lia)). pose proof (IZR_le z 300 ltac:(lia)).
    destruct (clip01_cases (IZR z / 300)) as [[A C]|[[A C]|[A C]]]; lra. }
  destruct (C76_sampled_too_low_refuted (die 300) (Name "full") 1 300 (fun z => die_F 300 (Fin (IZR z))) eq_refl eq_refl ltac:(lia)) as (c & z & E & Z & H).
  - reflexivity.
  - intros z z' Hz Hz'. rewrite !DF by lia. pose proof (IZR_lt z z' ltac:(lia)). lra.
  - exists c, z. split; [exact E|]. split; [exact Z|]. intros y D. destruct (H y D) as (h & -> & L). exists h. split; [reflexivity|]. rewrite <- DF by lia. exact L.
Qed.
Print Assumptions C76_discrete_exact.
Print Assumptions C76_sampled_too_low_refuted.
Print Assumptions C76_continuous.
Print Assumptions C76_quantiles.
Print Assumptions C76_mass.
Print Assumptions C76_nan_mass.
Print Assumptions C76_stems.
Print Assumptions C76_censored.
Print Assumptions C76_upper_unmarked_refuted.
Print Assumptions C76_mark_height_refuted.
Print Assumptions C76_panel.
