(** Property theorems for the plots of MvNormal and Dirichlet: C77. *)
From Coq Require Import List Bool String Reals ZArith Lra Lia Permutation Sorted.
From Verif Require GeoProps.
From Verif Require Import Base RLists XR LawModel LawSpec LawProofs LawProps SelProps ModModel CurveModel CurveProps GeoModel MvModel MultiModel.
Import ListNotations.
Local Open Scope R_scope.
Local Open Scope string_scope.
Local Open Scope list_scope.

(* ---------------- specification ---------------- *)
(** What the plot of one marginal is: that of the univariate distribution. *)
Definition shown (p : plot_method) (m : methods) (support : support_arg) (s : list shape) : Prop :=
  match p with
  | Ppdf _ => plot_pdf Ordinary m support = Ok s
  | Pcdf => plot_cdf m support = Ok s
  | Pppf => s = plot_ppf m
  | Psf => plot_sf m support = Ok s
  | Pisf => s = plot_isf m
  end.
Definition of_marginals (p : plot_method) : Prop := match p with Ppdf marginals => marginals = true | _ => True end.
(** A panel with the plot of [m] and no limits set. *)
Definition panel_of (p : plot_method) (support : support_arg) (m : methods) (q : panel) : Prop :=
  shown p m support (shapes q) /\ x_limits q = None /\ y_limits q = None.
(** A height that can be seen between the limits of an axis. *)
Definition visible (limits : xr * xr) (y : R) : Prop :=
  match limits with (Fin a, Fin b) => Rmin a b <= y <= Rmax a b | _ => True end.

(* ---------------- marginals ---------------- *)
Lemma plot_each_all what support ms : (forall m, In m ms -> exists s, draw what m support = Ok s) ->
  exists ps, plot_each what support Auto ms = (ps, Ok tt) /\
    Forall2 (fun m q => draw what m support = Ok (shapes q) /\ x_limits q = None /\ y_limits q = None) ms ps.
Proof.
  induction ms as [|m ms IH]; intro H; [exists []; split; [reflexivity|constructor]|].
  destruct (H m (or_introl eq_refl)) as [s E]. destruct IH as (ps & E2 & F); [intros; apply H; right; assumption|].
  cbn [plot_each]. unfold plot_marginal. cbn [limits_of bind is_auto negb andb]. rewrite E. cbn. rewrite E2.
  eexists. split; [reflexivity|]. constructor; [|exact F]. auto.
Qed.
Definition word (p : plot_method) : string := match p with Ppdf _ => "pdf" | Pcdf => "cdf" | Pppf => "ppf" | Psf => "sf" | Pisf => "isf" end.
Definition passed (p : plot_method) (support : support_arg) : option support_arg := match p with Pppf | Pisf => None | _ => Some support end.
Lemma plot_as_marginals jd j p support title axes ms : of_marginals p ->
  plot_as jd j p support title axes ms = plot_marginals (word p) (passed p support) Auto title axes ms.
Proof. destruct p; cbn; intro H; try subst; reflexivity. Qed.
Lemma draw_shown p m support s : draw (word p) m (passed p support) = Ok s <-> shown p m support s.
Proof. destruct p; cbn; split; intro H; try congruence; try (injection H as <-; reflexivity). Qed.
Lemma panels p support ms : (forall m, In m ms -> exists s, shown p m support s) ->
  exists ps, plot_each (word p) (passed p support) Auto ms = (ps, Ok tt) /\ Forall2 (panel_of p support) ms ps.
Proof.
  intro H. destruct (plot_each_all (word p) (passed p support) ms) as (ps & E & F).
  - intros m I. destruct (H m I) as [s S]. exists s. apply draw_shown. exact S.
  - exists ps. split; [exact E|]. clear - F. induction F as [|m q ms ps (A & B & C) F IH]; constructor; [|exact IH].
    split; [apply draw_shown; exact A|auto].
Qed.
Lemma count_enough n : (2 <= n)%nat -> exists k, count_axes n None = Ok k /\ (n <= k)%nat.
Proof.
  intro H. destruct n as [|[|n]]; try lia. cbn [count_axes]. eexists. split; [reflexivity|].
  unfold get_cols_rows. destruct (Nat.leb_spec (S (S n)) 3) as [G|G]; cbn [fst snd]; [lia|].
  pose proof (Nat.div_mod (S (S n) + 2) 3 ltac:(lia)). pose proof (Nat.mod_upper_bound (S (S n) + 2) 3 ltac:(lia)). lia.
Qed.

(** With two components or more, and no axes given, each of the plots has one panel for each component, in order, with the plot
    of its marginal. *)
Theorem C77_panels : forall joint_dim joint p support title ms, of_marginals p -> (2 <= List.length ms)%nat ->
  (forall m, In m ms -> exists s, shown p m support s) ->
  exists ps, plot_as joint_dim joint p support title None ms = (ps, Ok tt) /\ Forall2 (panel_of p support) ms ps.
Proof.
  intros jd j p support title ms O L H. rewrite plot_as_marginals by exact O. unfold plot_marginals.
  destruct (count_enough _ L) as (k & K & LK). rewrite K, firstn_all2 by lia.
  destruct (panels p support ms H) as (ps & E & F). rewrite E. exists ps. split; [destruct title; reflexivity|exact F].
Qed.
(** FINDING. With axes given and the default legend, the call ends with an exception after drawing every panel. *)
Theorem C77_given_axes_refuted : forall joint_dim joint p support n ms, of_marginals p -> (List.length ms <= n)%nat ->
  (forall m, In m ms -> exists s, shown p m support s) ->
  exists ps, plot_as joint_dim joint p support true (Some n) ms = (ps, Err NameError) /\ Forall2 (panel_of p support) ms ps.
Proof.
  intros jd j p support n ms O L H. rewrite plot_as_marginals by exact O. unfold plot_marginals. cbn [count_axes].
  rewrite firstn_all2 by lia. destruct (panels p support ms H) as (ps & E & F). rewrite E. eauto.
Qed.
(** FINDING. With fewer axes than components the last ones are left out, without an exception. *)
Theorem C77_few_axes_refuted : forall joint_dim joint p support n ms, of_marginals p -> (n < List.length ms)%nat ->
  (forall m, In m ms -> exists s, shown p m support s) ->
  exists ps, plot_as joint_dim joint p support false (Some n) ms = (ps, Ok tt) /\ List.length ps = n.
Proof.
  intros jd j p support n ms O L H. rewrite plot_as_marginals by exact O. unfold plot_marginals. cbn [count_axes].
  destruct (panels p support (firstn n ms)) as (ps & E & F).
  - intros m I. apply H. rewrite <- (firstn_skipn n ms). apply in_or_app. left. exact I.
  - rewrite E. exists ps. split; [reflexivity|]. assert (G : forall A B (R : A -> B -> Prop) l m, Forall2 R l m -> List.length l = List.length m) by (induction 1; cbn; congruence).
    apply G in F. rewrite <- F. apply firstn_length_le. lia.
Qed.
(** FINDING. A distribution with one component cannot be plotted. *)
Theorem C77_one_component_refuted : forall joint_dim joint p support title m, of_marginals p ->
  plot_as joint_dim joint p support title None [m] = ([], Err AttributeError).
Proof. intros jd j p support title m O. rewrite plot_as_marginals by exact O. reflexivity. Qed.
(** The joint plot is only for three components of a Dirichlet and two of an MvNormal. *)
Theorem C77_joint : forall joint_dim joint support title axes ms,
  plot_as joint_dim joint (Ppdf false) support title axes ms = ([], if Nat.eqb (List.length ms) joint_dim then joint else Err ValueError).
Proof. intros. cbn. unfold plot_multi. destruct (Nat.eqb _ _); reflexivity. Qed.

(* ---------------- interactive plots ---------------- *)
(** FINDING. plot_interactive(kind="ppf") of a Dirichlet tries to draw the cdf and ends with an exception before anything is
    drawn, at every position of the sliders and with any limits. *)
Theorem C77_dirichlet_ppf_refuted : forall joint box lim title m m' ms,
  (exists v, limits_of "cdf" m lim = Ok v) -> interactive_dirichlet joint "ppf" box lim title (m :: m' :: ms) = ([], Err ValueError).
Proof.
  intros joint box lim title m m' ms [v V]. unfold interactive_dirichlet. cbn [String.eqb Ascii.eqb Bool.eqb plot_multi]. unfold plot_marginals.
  destruct (count_enough (List.length (m :: m' :: ms)) ltac:(cbn; lia)) as (k & K & LK). rewrite K, firstn_all2 by lia.
  cbn [plot_each]. unfold plot_marginal. rewrite V. reflexivity.
Qed.
Lemma each_limits what support lim ms : (forall m, In m ms -> exists q, plot_marginal what support lim m = Ok q) ->
  exists ps, plot_each what support lim ms = (ps, Ok tt) /\ Forall2 (fun m q => plot_marginal what support lim m = Ok q) ms ps.
Proof.
  induction ms as [|m ms IH]; intro H; [exists []; split; [reflexivity|constructor]|].
  destruct (H m (or_introl eq_refl)) as [q E]. destruct IH as (ps & E2 & F); [intros; apply H; right; assumption|].
  cbn [plot_each]. rewrite E, E2. eexists. split; [reflexivity|]. constructor; assumption.
Qed.
(** plot_interactive(kind="pdf") of both, with the box for marginals ticked: the density of each marginal over its whole
    support; its height at every point of the restricted grid can be seen. *)
Theorem C77_interactive_pdf : forall joint title ms (f : methods -> R -> R), (2 <= List.length ms)%nat ->
  (forall m, In m ms -> (forall x, m_pdf m (Fin x) = Fin (f m x)) /\ (forall x, 0 <= f m x) /\
     exists e x xs s, finite_endpoints m (Name "full") = Ok e /\ xvals m (Name "restricted") = Ok (map Fin (x :: xs)) /\ plot_pdf Ordinary m (Name "full") = Ok s) ->
  exists ps, interactive_mvnormal joint "pdf" true Both title ms = (ps, Ok tt) /\ interactive_dirichlet joint "pdf" true Both title ms = (ps, Ok tt) /\
    Forall2 (fun m q => plot_pdf Ordinary m (Name "full") = Ok (shapes q) /\ (exists e, finite_endpoints m (Name "full") = Ok e /\ x_limits q = Some e) /\
      exists xs l, xvals m (Name "restricted") = Ok (map Fin xs) /\ y_limits q = Some l /\
        (exists top, l = (Fin (- top * 0.075), Fin (top * 1.5)) /\ exists x, In x xs /\ top = f m x) /\ forall x, In x xs -> visible l (f m x)) ms ps.
Proof.
  intros joint title ms f L H. unfold interactive_mvnormal, interactive_dirichlet. cbn [String.eqb Ascii.eqb Bool.eqb plot_multi]. unfold plot_marginals.
  destruct (count_enough _ L) as (k & K & LK). rewrite K, firstn_all2 by lia.
  assert (G : forall m, In m ms -> exists q, plot_marginal "pdf" (Some (Name "full")) Both m = Ok q /\ plot_pdf Ordinary m (Name "full") = Ok (shapes q) /\
    (exists e, finite_endpoints m (Name "full") = Ok e /\ x_limits q = Some e) /\
      exists xs l, xvals m (Name "restricted") = Ok (map Fin xs) /\ y_limits q = Some l /\
        (exists top, l = (Fin (- top * 0.075), Fin (top * 1.5)) /\ exists x, In x xs /\ top = f m x) /\ forall x, In x xs -> visible l (f m x)).
  { intros m I. destruct (H m I) as (PF & PP & e & x & xs & s & A & B & C). unfold plot_marginal, limits_of. rewrite A, B. cbn [bind String.eqb Ascii.eqb Bool.eqb].
    destruct (fold_pick_max (map (f m) xs) (f m x)) as (top & T & TI & TB).
    assert (NM : np_max (map (m_pdf m) (map Fin (x :: xs))) = Ok (Fin top)).
    { unfold np_max, np_extreme. cbn [map]. rewrite PF. replace (map (m_pdf m) (map Fin xs)) with (map Fin (map (f m) xs)); [rewrite T; reflexivity|].
      rewrite !map_map. apply map_ext. intro. symmetry. apply PF. }
    rewrite NM. unfold draw. cbn [bind String.eqb Ascii.eqb Bool.eqb]. rewrite C. cbn [bind is_auto negb andb set_limits fst snd String.eqb Ascii.eqb Bool.eqb].
    eexists. split; [reflexivity|]. split; [reflexivity|]. split; [eauto|]. exists (x :: xs). eexists. split; [reflexivity|]. split; [reflexivity|].
    change (f m x :: map (f m) xs) with (map (f m) (x :: xs)) in TI, TB. split.
    - exists top. split; [reflexivity|]. apply in_map_iff in TI. destruct TI as (y & Y1 & Y2). exists y. auto.
    - intros y Y. specialize (TB (f m y) (in_map (f m) _ _ Y)). pose proof (PP y). cbn [visible xmul xneg]. rewrite Rmin_left, Rmax_right by lra. lra. }
  destruct (each_limits "pdf" (Some (Name "full")) Both ms) as (ps & E & F).
  { intros m I. destruct (G m I) as (q & Q & _). eauto. }
  rewrite E. exists ps. split; [destruct title; reflexivity|]. split; [destruct title; reflexivity|].
  clear - F G. induction F as [|m q ms ps A F IH]; constructor.
  - destruct (G m (or_introl eq_refl)) as (q' & Q & R). rewrite Q in A. injection A as <-. exact R.
  - apply IH. intros m' I. apply G. right. exact I.
Qed.
(** plot_interactive(kind="cdf") of both draws the cdf of each marginal over its whole support, with the limits of the
    horizontal axis at its ends. *)
Theorem C77_interactive_cdf : forall joint box title ms, (2 <= List.length ms)%nat ->
  (forall m, In m ms -> exists l u r s, finite_endpoints m (Name "full") = Ok (l, u) /\ xvals m (Name "restricted") = Ok r /\ plot_cdf m (Name "full") = Ok s) ->
  exists ps, interactive_mvnormal joint "cdf" box Both title ms = (ps, Ok tt) /\ interactive_dirichlet joint "cdf" box Both title ms = (ps, Ok tt) /\
    Forall2 (fun m q => plot_cdf m (Name "full") = Ok (shapes q) /\ (exists e, finite_endpoints m (Name "full") = Ok e /\ x_limits q = Some e) /\ y_limits q = None) ms ps.
Proof.
  intros joint box title ms L H. unfold interactive_mvnormal, interactive_dirichlet. cbn [String.eqb Ascii.eqb Bool.eqb plot_multi]. unfold plot_marginals.
  destruct (count_enough _ L) as (k & K & LK). rewrite K, firstn_all2 by lia.
  destruct (each_limits "cdf" (Some (Name "full")) Both ms) as (ps & E & F).
  { intros m I. destruct (H m I) as (l & u & r & s & A & B & C). unfold plot_marginal, limits_of. rewrite A, B. cbn. unfold draw. cbn. rewrite C. cbn. eauto. }
  rewrite E. exists ps. split; [destruct title; reflexivity|]. split; [destruct title; reflexivity|].
  assert (G : forall m q, In m ms -> plot_marginal "cdf" (Some (Name "full")) Both m = Ok q ->
    plot_cdf m (Name "full") = Ok (shapes q) /\ (exists e, finite_endpoints m (Name "full") = Ok e /\ x_limits q = Some e) /\ y_limits q = None).
  { intros m q I. destruct (H m I) as (l & u & r & s & A & B & C). unfold plot_marginal, limits_of. rewrite A, B. cbn. unfold draw. cbn. rewrite C. cbn.
    intro Q. injection Q as <-. cbn. eauto 6. }
  clear - F G. induction F as [|m q ms ps A F IH]; constructor; [apply G; [left; reflexivity|exact A]|apply IH; intros; apply G; [right|]; assumption].
Qed.
(** What plot_interactive(kind="ppf") of an MvNormal draws, with the limits it sets: they only depend on the quantile 0.999. *)
Theorem C77_mvnormal_ppf : forall joint box title ms (q : methods -> R), (2 <= List.length ms)%nat ->
  (forall m, In m ms -> m_ppf m (Fin 0.999) = Fin (q m) /\ exists l u r, finite_endpoints m (Name "full") = Ok (l, u) /\ xvals m (Name "restricted") = Ok r) ->
  exists ps, interactive_mvnormal joint "ppf" box Both title ms = (ps, Ok tt) /\
    Forall2 (fun m p => shapes p = plot_ppf m /\ x_limits p = None /\ y_limits p = Some (Fin (- q m * 0.075), Fin (q m * 1.5))) ms ps.
Proof.
  intros joint box title ms q L H. unfold interactive_mvnormal. cbn [String.eqb Ascii.eqb Bool.eqb plot_multi]. unfold plot_marginals.
  destruct (count_enough _ L) as (k & K & LK). rewrite K, firstn_all2 by lia.
  destruct (each_limits "ppf" None Both ms) as (ps & E & F).
  { intros m I. destruct (H m I) as (Q & l & u & r & A & B). unfold plot_marginal, limits_of. rewrite A, B. cbn -[plot_ppf]. eauto. }
  rewrite E. exists ps. split; [destruct title; reflexivity|].
  assert (G : forall m p, In m ms -> plot_marginal "ppf" None Both m = Ok p -> shapes p = plot_ppf m /\ x_limits p = None /\ y_limits p = Some (Fin (- q m * 0.075), Fin (q m * 1.5))).
  { intros m p I. destruct (H m I) as (Q & l & u & r & A & B). unfold plot_marginal, limits_of. rewrite A, B, Q. cbn -[plot_ppf].
    intro P. injection P as <-. cbn -[plot_ppf]. auto. }
  clear - F G. induction F as [|m p ms ps A F IH]; constructor; [apply G; [left; reflexivity|exact A]|apply IH; intros; apply G; [right|]; assumption].
Qed.
(** FINDING. With these limits nothing below -0.075 of the quantile 0.999 can be seen, and if that quantile is negative the
    vertical axis is upside down and nothing above -0.075 of it or below 1.5 of it can be seen. *)
Theorem C77_ppf_limits_refuted : forall q y,
  (0 < q -> y < - q * 0.075 -> ~ visible (Fin (- q * 0.075), Fin (q * 1.5)) y) /\
  (q < 0 -> q * 1.5 < - q * 0.075 /\ (y < q * 1.5 -> ~ visible (Fin (- q * 0.075), Fin (q * 1.5)) y)).
Proof.
  intros q y. cbn [visible]. split.
  - intros Q Y [A _]. rewrite Rmin_left in A by lra. lra.
  - intro Q. split; [lra|]. intros Y [A _]. rewrite Rmin_right in A by lra. lra.
Qed.
(** Any other kind of plot draws nothing, without an exception. *)
Theorem C77_other_kinds : forall joint kind box lim title ms, kind <> "pdf" -> kind <> "cdf" -> kind <> "ppf" ->
  interactive_dirichlet joint kind box lim title ms = ([], Ok tt) /\ interactive_mvnormal joint kind box lim title ms = ([], Ok tt).
Proof.
  intros joint kind box lim title ms A B C. apply String.eqb_neq in A, B, C. unfold interactive_dirichlet, interactive_mvnormal.
  rewrite A, B, C. auto.
Qed.

(* ---------------- the joint plot of an MvNormal ---------------- *)
Lemma mgrid_length lo hi : lo <= hi -> (hi - lo) / 0.01 <= INR (List.length (mgrid lo hi)) < (hi - lo) / 0.01 + 1.
Proof.
  intro H. unfold mgrid. rewrite map_length, seq_length.
  assert (Z0 : 0 <= (hi - lo) / 0.01) by (unfold Rdiv; apply Rmult_le_pos; [lra|apply Rlt_le, Rinv_0_lt_compat; lra]).
  generalize dependent ((hi - lo) / 0.01). intros r Z0. destruct (base_Int_part (- r)) as [A B].
  rewrite INR_IZR_INZ, Z2Nat.id; [rewrite opp_IZR; lra|]. apply le_IZR. rewrite opp_IZR. lra.
Qed.
Lemma mgrid_in lo hi x : In x (mgrid lo hi) <-> exists i, (i < List.length (mgrid lo hi))%nat /\ x = lo + INR i * 0.01.
Proof.
  unfold mgrid. rewrite map_length, seq_length, in_map_iff. split.
  - intros (i & <- & I). apply in_seq in I. exists i. split; [lia|reflexivity].
  - intros (i & I & ->). exists i. split; [reflexivity|apply in_seq; lia].
Qed.
(** The joint plot of an MvNormal covers three standard deviations each way, in steps of 0.01. *)
Theorem C77_joint_grid : forall mean sd, 0 <= sd ->
  let xs := mgrid (mean - 3 * sd) (mean + 3 * sd) in
  (forall x, In x xs -> mean - 3 * sd <= x < mean + 3 * sd) /\
  (forall t, mean - 3 * sd <= t < mean + 3 * sd -> exists x, In x xs /\ x <= t < x + 0.01) /\
  ((2 <= List.length xs)%nat <-> 1 / 600 < sd).
Proof.
  intros mean sd H xs. pose proof (mgrid_length (mean - 3 * sd) (mean + 3 * sd) ltac:(lra)) as L. fold xs in L.
  replace ((mean + 3 * sd - (mean - 3 * sd)) / 0.01) with (600 * sd) in L by lra. split; [|split].
  - intros x I. apply mgrid_in in I. destruct I as (i & I & ->). fold xs in I. apply le_INR in I. rewrite S_INR in I. pose proof (pos_INR i). lra.
  - intros t T. set (r := (t - (mean - 3 * sd)) / 0.01). destruct (base_Int_part r) as [A B].
    assert (R0 : t = mean - 3 * sd + r * 0.01) by (unfold r; lra).
    assert (P : 0 <= r) by lra. assert (Z0 : (0 <= Int_part r)%Z).
    { apply Z.lt_succ_r, lt_IZR. rewrite succ_IZR. lra. }
    exists (mean - 3 * sd + INR (Z.to_nat (Int_part r)) * 0.01). rewrite <- (Z2Nat.id _ Z0), <- INR_IZR_INZ in A, B. split; [|lra].
    apply mgrid_in. exists (Z.to_nat (Int_part r)). split; [|reflexivity]. fold xs. apply INR_lt. lra.
  - split.
    + intro G. apply le_INR in G. cbn in G. lra.
    + intro G. apply INR_lt in L as _ || idtac. apply INR_le. cbn [INR].
      destruct (le_lt_dec 2 (List.length xs)) as [Q|Q]; [apply le_INR in Q; cbn [INR] in Q; lra|].
      assert (Q' : (List.length xs <= 1)%nat) by lia. apply le_INR in Q'. cbn in Q'. lra.
Qed.
(** FINDING. If a standard deviation is 1/600 or less the joint plot is an exception. *)
Theorem C77_narrow_normal_refuted : forall sort pdf mu v1 v2, 0 <= v1 -> 0 <= v2 -> sqrt v1 <= 1 / 600 \/ sqrt v2 <= 1 / 600 ->
  exists e, joint_normal sort pdf mu (v1, v2) = Err e.
Proof.
  intros sort pdf [m1 m2] v1 v2 H1 H2 H. unfold joint_normal. cbn [fst snd].
  destruct (find_hdi_contours _ _ _) as [levels|e]; [|exists e; reflexivity]. cbn [bind].
  pose proof (proj2 (proj2 (C77_joint_grid m1 (sqrt v1) (sqrt_pos _)))) as A.
  pose proof (proj2 (proj2 (C77_joint_grid m2 (sqrt v2) (sqrt_pos _)))) as B. cbv zeta in A, B.
  destruct (Nat.leb_spec 2 (List.length (mgrid (m1 - 3 * sqrt v1) (m1 + 3 * sqrt v1)))) as [LA|LA]; [|exists TypeError; reflexivity].
  destruct (Nat.leb_spec 2 (List.length (mgrid (m2 - 3 * sqrt v2) (m2 + 3 * sqrt v2)))) as [LB|LB]; [|exists TypeError; reflexivity].
  apply A in LA. apply B in LB. lra.
Qed.
Lemma ltb_iff a b : Rltb a b = true <-> a < b.
Proof. destruct (Rltb_spec a b); split; intro; congruence || lra || assumption || reflexivity. Qed.
Lemma eqb_iff a b : Reqb a b = true <-> a = b.
Proof. destruct (Reqb_spec a b); split; intro; congruence || assumption || reflexivity. Qed.
Lemma increasing_sorted : forall l, increasing l = true <-> StronglySorted Rlt l.
Proof.
  assert (G : forall l x, (fix go x l := match l with [] => true | y :: r => Rltb x y && go y r end) x l = true <-> StronglySorted Rlt (x :: l)).
  { induction l as [|y l IH]; intro x; [split; [repeat constructor|reflexivity]|].
    rewrite andb_true_iff, IH, ltb_iff. split.
    - intros [A B]. constructor; [exact B|]. constructor; [exact A|]. inversion B as [|? ? ? F]; subst.
      eapply Forall_impl; [|exact F]. intros; cbn in *; lra.
    - intro B. inversion B as [|? ? S F]; subst. inversion F; subst. auto. }
  intros [|x l]; [split; [constructor|reflexivity]|]. unfold increasing. cbn [hd]. rewrite andb_true_iff, G, ltb_iff.
  split; [intros [_ S]; exact S|intro S; split; [lra|exact S]].
Qed.
(** When the joint plots draw lines, the levels are those of find_hdi_contours (C44, C45) and increase. *)
Theorem C77_levels : forall sort pdf mu var pvals,
  (forall xs ys levels, joint_normal sort pdf mu var = Ok (xs, ys, levels) ->
     find_hdi_contours sort (flat_map (fun x => map (fun y => pdf x y) ys) xs) [0.1; 0.5; 0.94] = Ok levels /\ StronglySorted Rlt levels) /\
  (forall levels, joint_dirichlet sort pvals = Ok (Lines levels) ->
     find_hdi_contours sort pvals [0.1; 0.5; 0.94] = Ok levels /\ StronglySorted Rlt levels).
Proof.
  intros sort pdf mu var pvals. split.
  - intros xs ys levels. unfold joint_normal. destruct (find_hdi_contours _ _ _) as [l|e] eqn:E; [|discriminate]. cbn [bind].
    destruct (_ && _); [|discriminate]. destruct (increasing l) eqn:I; [|discriminate]. intro Q. injection Q as <- <- <-.
    split; [exact E|apply increasing_sorted; exact I].
  - intros levels. unfold joint_dirichlet. destruct (forallb _ pvals); [discriminate|].
    destruct (find_hdi_contours _ _ _) as [l|e]; [|discriminate]. cbn [bind]. destruct (forallb _ l); [discriminate|].
    destruct (increasing l) eqn:I; [|discriminate]. intro Q. injection Q as <-. split; [reflexivity|apply increasing_sorted; exact I].
Qed.
(** Nothing is drawn for a Dirichlet only if its density vanishes on the whole mesh. *)
Theorem C77_nothing : forall sort pvals, joint_dirichlet sort pvals = Ok Nothing <-> Forall (fun p => p = 0) pvals.
Proof.
  intros sort pvals. unfold joint_dirichlet. destruct (forallb (fun p => Reqb p 0) pvals) eqn:E.
  - split; [intros _|reflexivity]. apply Forall_forall. intros p I. rewrite forallb_forall in E. apply eqb_iff, E, I.
  - split.
    + destruct (find_hdi_contours _ _ _) as [l|e]; [|discriminate]. cbn [bind]. destruct (forallb _ l); [discriminate|]. destruct (increasing l); discriminate.
    + intro F. exfalso. rewrite <- not_true_iff_false in E. apply E. apply forallb_forall. intros p I. rewrite Forall_forall in F. apply eqb_iff, F, I.
Qed.
Lemma sorted_unique (sort : list R -> list R) l m : Permutation (sort l) l -> StronglySorted Rle (sort l) -> Permutation l m -> StronglySorted Rle m -> sort l = m.
Proof.
  intros P Q PM S. assert (P2 : Permutation (sort l) m) by (eapply Permutation_trans; eassumption). clear P PM. revert Q P2. generalize (sort l). clear l sort.
  intro l. revert m S. induction l as [|x l IH]; intros m S Q P.
  - apply Permutation_nil in P. congruence.
  - destruct m as [|y m]; [apply Permutation_sym, Permutation_nil in P; discriminate|].
    inversion Q as [|? ? Q1 Q2]; subst. inversion S as [|? ? S1 S2]; subst. rewrite Forall_forall in Q2, S2.
    assert (x = y).
    { assert (X : In x (y :: m)) by (apply (Permutation_in _ P); left; reflexivity).
      assert (Y : In y (x :: l)) by (apply (Permutation_in _ (Permutation_sym P)); left; reflexivity).
      destruct X as [X|X]; [congruence|]. destruct Y as [Y|Y]; [congruence|]. apply Rle_antisym; [apply Q2, Y|apply S2, X]. }
    subst y. f_equal. apply IH; [exact S1|exact Q1|]. eapply Permutation_cons_inv. exact P.
Qed.
(** What is drawn for a Dirichlet whose density is not 0 everywhere on the mesh: filled regions if the three levels are one and the same, lines if they
    are all different, and otherwise the plot is an exception. For an MvNormal there are lines or an exception. *)
Theorem C77_outcomes : forall sort pdf mu var pvals,
  (forall levels, Exists (fun p => p <> 0) pvals -> find_hdi_contours sort pvals [0.1; 0.5; 0.94] = Ok levels ->
    (joint_dirichlet sort pvals = Ok Filled <-> forall a b, In a levels -> In b levels -> a = b) /\
    (levels <> [] -> (exists a b, In a levels /\ In b levels /\ a <> b) -> StronglySorted Rlt levels -> joint_dirichlet sort pvals = Ok (Lines levels)) /\
    ((exists a b, In a levels /\ In b levels /\ a <> b) -> ~ StronglySorted Rlt levels -> joint_dirichlet sort pvals = Err ValueError)) /\
  (forall xs ys levels, xs = mgrid (fst mu - 3 * sqrt (fst var)) (fst mu + 3 * sqrt (fst var)) -> ys = mgrid (snd mu - 3 * sqrt (snd var)) (snd mu + 3 * sqrt (snd var)) ->
    (2 <= List.length xs)%nat -> (2 <= List.length ys)%nat ->
    find_hdi_contours sort (flat_map (fun x => map (fun y => pdf x y) ys) xs) [0.1; 0.5; 0.94] = Ok levels ->
    (StronglySorted Rlt levels -> joint_normal sort pdf mu var = Ok (xs, ys, levels)) /\
    (~ StronglySorted Rlt levels -> joint_normal sort pdf mu var = Err ValueError)).
Proof.
  intros sort pdf mu var pvals. split.
  - intros levels Nz E. unfold joint_dirichlet. replace (forallb (fun p => Reqb p 0) pvals) with false.
    2:{ symmetry. apply not_true_iff_false. intro F. rewrite forallb_forall in F. apply Exists_exists in Nz as (p & I & Np). apply Np, eqb_iff, F, I. }
    rewrite E. cbn [bind].
    assert (Q : forallb (fun c => Reqb c (hd 0 levels)) levels = true <-> forall a b, In a levels -> In b levels -> a = b).
    { rewrite forallb_forall. split.
      - intros F a b Ia Ib. pose proof (F a Ia) as Fa. pose proof (F b Ib) as Fb. apply eqb_iff in Fa, Fb. congruence.
      - intros F a Ia. apply eqb_iff. apply F; [exact Ia|]. destruct levels; [contradiction|left; reflexivity]. }
    split; [|split].
    + rewrite <- Q. destruct (forallb _ levels); [split; reflexivity|]. split; [|discriminate]. destruct (increasing levels); discriminate.
    + intros _ (a & b & Ia & Ib & N) S. destruct (forallb _ levels); [exfalso; apply N; apply (proj1 Q eq_refl); assumption|].
      apply increasing_sorted in S. rewrite S. reflexivity.
    + intros (a & b & Ia & Ib & N) S. destruct (forallb _ levels); [exfalso; apply N; apply (proj1 Q eq_refl); assumption|].
      destruct (increasing levels) eqn:I; [exfalso; apply S, increasing_sorted, I | reflexivity].
  - intros xs ys levels Ex Ey Lx Ly E. unfold joint_normal. rewrite <- Ex, <- Ey. change (fun x => map (fun y => pdf x y) ys) with (fun x => map (pdf x) ys) in E. cbv zeta. rewrite E. cbn [bind].
    apply Nat.leb_le in Lx, Ly. rewrite Lx, Ly. cbn [andb]. split; intro S.
    + apply increasing_sorted in S. rewrite S. reflexivity.
    + destruct (increasing levels) eqn:I; [exfalso; apply S, increasing_sorted, I | reflexivity].
Qed.
(** FINDING. When the largest value of the density on the mesh holds more than half of the total, two of the three levels are equal: unless it holds, with
    the next one, more than 0.94 of the total, the plot is an exception; if it does, the third level is the same too and regions are filled. *)
Theorem C77_concentrated_refuted : forall sort m m' rest pvals, (forall l, Permutation (sort l) l /\ StronglySorted Rle (sort l)) ->
  Permutation pvals (m :: m' :: rest) -> Forall (fun p => 0 <= p) pvals -> Forall (fun p => p <= m') rest -> Rsum pvals / 2 < m ->
  (m + m' <= 0.94 * Rsum pvals -> joint_dirichlet sort pvals = Err ValueError) /\
  (0.94 * Rsum pvals < m + m' -> joint_dirichlet sort pvals = Ok Filled).
Proof.
  intros sort m m' rest pvals H P NN R M.
  assert (T : Rsum pvals = m + (m' + Rsum rest)) by (rewrite (Rsum_perm _ _ P), !Rsum_cons; reflexivity).
  assert (NN' : Forall (fun p => 0 <= p) (m :: m' :: rest)).
  { apply Forall_forall. intros x I. rewrite Forall_forall in NN. apply NN. exact (Permutation_in _ (Permutation_sym P) I). }
  pose proof (Forall_inv NN') as M0. pose proof (Forall_inv (Forall_inv_tail NN')) as M1. pose proof (Forall_inv_tail (Forall_inv_tail NN')) as M2.
  assert (S0 : 0 <= Rsum rest) by (apply Rsum_nonneg; exact M2).
  assert (Tot : 0 < Rsum pvals) by lra. assert (MM : m' < m) by lra.
  destruct (H rest) as [PR SR].
  assert (Es : rev (sort pvals) = m :: m' :: rev (sort rest)).
  { rewrite (sorted_unique sort pvals (sort rest ++ [m'; m])).
    - rewrite rev_app_distr. reflexivity.
    - apply H.
    - apply H.
    - eapply Permutation_trans; [exact P|]. apply Permutation_trans with ([m; m'] ++ sort rest); [cbn [app]; do 2 apply perm_skip; apply Permutation_sym; exact PR|].
      apply Permutation_trans with (sort rest ++ [m; m']); [apply Permutation_app_comm|]. apply Permutation_app_head. apply perm_swap.
    - assert (B : forall x, In x (sort rest) -> x <= m') by (intros x I; rewrite Forall_forall in R; apply R; exact (Permutation_in _ PR I)).
      clear -SR B MM. induction SR as [|x l S IH F].
      { constructor; [repeat constructor|]. constructor; [lra|]. constructor. }
      cbn [app]. constructor; [apply IH; intros; apply B; right; assumption|].
      apply Forall_app. split; [exact F|]. pose proof (B x (or_introl eq_refl)). constructor; [lra|]. constructor; [lra|]. constructor. }
  set (s := m :: m' :: rev (sort rest)) in *.
  assert (Ps : Forall (fun x => 0 <= x) s).
  { unfold s. constructor; [exact M0|]. constructor; [exact M1|]. apply Forall_forall. intros x I. rewrite Forall_forall in M2. apply M2.
    apply in_rev in I. exact (Permutation_in _ PR I). }
  assert (Rs : Rsum s = Rsum pvals).
  { unfold s. rewrite !Rsum_cons, T. f_equal. f_equal. apply Rsum_perm. eapply Permutation_trans; [apply Permutation_sym, Permutation_rev | exact PR]. }
  assert (F1 : Rsum (firstn 1 s) = m) by (unfold s; cbn [firstn]; rewrite Rsum_cons, Rsum_nil; lra).
  assert (F2 : Rsum (firstn 2 s) = m + m') by (unfold s; cbn [firstn]; rewrite !Rsum_cons, Rsum_nil; lra).
  assert (first : forall p, p <= 0.5 -> contour s p = m).
  { intros p Hp. destruct (GeoProps.contour_at s p ltac:(discriminate) Ps ltac:(lra)) as (k & K & -> & A & B).
    destruct k as [|k]; [reflexivity|]. exfalso. specialize (A ltac:(lia)).
    pose proof (GeoProps.firstn_sum_mono s 1 (S k) Ps ltac:(lia)) as F. rewrite F1 in F. rewrite Rs in A. assert (p * Rsum pvals <= 0.5 * Rsum pvals) by (apply Rmult_le_compat_r; lra). lra. }
  assert (Cs : map (contour s) [0.1; 0.5; 0.94] = [m; m; contour s 0.94]).
  { cbn [map]. rewrite (first 0.1), (first 0.5) by lra. reflexivity. }
  assert (F0 : find_hdi_contours sort pvals [0.1; 0.5; 0.94] = Ok (sort [m; m; contour s 0.94])).
  { rewrite <- Cs. unfold find_hdi_contours. rewrite Es. reflexivity. }
  assert (Nz : Exists (fun p => p <> 0) pvals).
  { apply Exists_exists. exists m. split; [apply (Permutation_in _ (Permutation_sym P)); left; reflexivity | lra]. }
  destruct (C77_outcomes sort (fun _ _ => 0) (0, 0) (0, 0) pvals) as [O _]. destruct (O _ Nz F0) as (OF & _ & OE). clear O.
  destruct (GeoProps.contour_at s 0.94 ltac:(discriminate) Ps ltac:(lra)) as (k & K & Ek & A & B).
  assert (K2 : (2 <= List.length s)%nat) by (unfold s; cbn; lia).
  destruct (H [m; m; contour s 0.94]) as [P3 S3]. split; intro C.
  - assert (Kk : (2 <= k)%nat).
    { destruct (Nat.le_gt_cases 2 k); [assumption|]. exfalso. specialize (B ltac:(lia)).
      pose proof (GeoProps.firstn_sum_mono s (S k) 2 Ps ltac:(lia)) as F. rewrite F2 in F. rewrite Rs in B. lra. }
    assert (L : contour s 0.94 <= m').
    { rewrite Ek. destruct k as [|[|k]]; try lia. cbn [pred]. change (nth (S k) s 0) with (nth k (m' :: rev (sort rest)) 0). destruct k as [|k]; [cbn [nth]; lra|]. cbn [nth].
      change (List.length s) with (S (S (List.length (rev (sort rest))))) in K. rewrite Forall_forall in R. apply R. apply (Permutation_in _ PR). apply in_rev. apply nth_In. lia. }
    apply OE.
    + exists m, (contour s 0.94). split; [apply (Permutation_in _ (Permutation_sym P3)); left; reflexivity|].
      split; [apply (Permutation_in _ (Permutation_sym P3)); do 2 right; left; reflexivity | lra].
    + intro Sl. rewrite (sorted_unique sort [m; m; contour s 0.94] [contour s 0.94; m; m]) in Sl; auto.
      * apply StronglySorted_inv in Sl as [S1 _]. apply StronglySorted_inv in S1 as [_ S2]. apply Forall_inv in S2. lra.
      * apply Permutation_sym. apply perm_trans with [m; contour s 0.94; m]; [apply perm_swap | apply perm_skip, perm_swap].
      * constructor; [constructor; [repeat constructor|]|]; repeat (constructor; [lra|]); constructor.
  - assert (Kk : (k <= 1)%nat).
    { destruct (Nat.le_gt_cases k 1); [assumption|]. exfalso. specialize (A ltac:(lia)).
      pose proof (GeoProps.firstn_sum_mono s 2 k Ps ltac:(lia)) as F. rewrite F2 in F. rewrite Rs in A. lra. }
    assert (L : contour s 0.94 = m) by (rewrite Ek; destruct k as [|[|k]]; try lia; reflexivity).
    apply OF. intros a b Ia Ib. apply (Permutation_in _ P3) in Ia, Ib. rewrite L in Ia, Ib. cbn [In] in Ia, Ib. intuition congruence.
Qed.
(** Both cases occur. *)
Example C77_concentrated_cases : forall sort, (forall l, Permutation (sort l) l /\ StronglySorted Rle (sort l)) ->
  joint_dirichlet sort [3; 6; 1] = Err ValueError /\ joint_dirichlet sort [1; 40; 1000] = Ok Filled.
Proof.
  intros sort H. split.
  - apply (C77_concentrated_refuted sort 6 3 [1] [3; 6; 1] H); [apply perm_swap | repeat constructor; lra | repeat constructor; lra | |];
      rewrite !Rsum_cons, Rsum_nil; lra.
  - apply (C77_concentrated_refuted sort 1000 40 [1] [1; 40; 1000] H); [exact (Permutation_rev [1; 40; 1000]) | repeat constructor; lra | repeat constructor; lra | |];
      rewrite !Rsum_cons, Rsum_nil; lra.
Qed.

(* ---------------- the sliders and the other methods ---------------- *)
(** Moving the sliders of an MvNormal replaces the mean and nothing else: the matrix it was given stays, and so does its name. *)
Theorem C77_mvnormal_sliders : forall M (inv : M -> res M) (o : mvnormal M) mu c t values,
  (forall a b, inv a = Ok b -> inv b = Ok a) -> inv c = Ok t ->
  mv_params o = Some (mu, match mv_names o with NameCov => c | NameTau => t end) ->
  slide_mvnormal inv o values = Ok (mkMv (Some values) (Some c) (Some t) (mv_names o)
    (Some (values, match mv_names o with NameCov => c | NameTau => t end)) (Some (values, c))).
Proof.
  intros M inv o mu c t values I E P. unfold slide_mvnormal. rewrite P. destruct (mv_names o).
  - unfold mv_new, mv_parametrization, mv_update. rewrite !E. reflexivity.
  - unfold mv_new, mv_parametrization, mv_update. rewrite !(I _ _ E), !E. reflexivity.
Qed.
(** Moving the sliders of a Dirichlet replaces its parameter. *)
Theorem C77_dirichlet_sliders : forall o values, dir_rv o <> None -> slide_dirichlet o values = Ok (mkDir (Some values) (Some values)).
Proof. intros o values H. unfold slide_dirichlet. destruct (dir_rv o); [reflexivity|congruence]. Qed.
(** Without parameters, the interactive plots, pdf, logpdf, rvs and entropy are AttributeErrors. *)
Theorem C77_unset : forall M (inv : M -> res M) P A (method : P -> A) values,
  slide_mvnormal inv (@mv_blank M) values = Err AttributeError /\ slide_dirichlet dir_blank values = Err AttributeError /\
  through None method = Err AttributeError.
Proof. intros. repeat split. Qed.
(** FINDING. xvals("restricted") is an AttributeError for both, and for an MvNormal so is xvals("full"). Any other name is
    taken for "full" instead of being rejected. *)
Theorem C77_xvals_refuted : forall s,
  multi_xvals (Fin 0, Fin 1) (Name "restricted") = Err AttributeError /\ multi_xvals (NInf, PInf) (Name s) = Err AttributeError /\
  (s <> "restricted" -> multi_xvals (Fin 0, Fin 1) (Name s) = Ok (map Fin (linspace 0 1 1000))).
Proof.
  intro s. unfold multi_xvals, multi_endpoints. cbn -[linspace xlinspace map]. split; [reflexivity|]. split; [reflexivity|].
  intro H. apply String.eqb_neq in H. rewrite H. reflexivity.
Qed.

(** Between two given numbers xvals is 1000 equally spaced points; if one of the ends is infinite or nan, none of the first 999 values is a number, and
    the last is the given end. *)
Theorem C77_xvals_pair : forall supp l u,
  (forall a b, l = Fin a -> u = Fin b -> exists xs, multi_xvals supp (Pair l u) = Ok (map Fin xs) /\ List.length xs = 1000%nat /\
     forall i, (i < 1000)%nat -> nth i xs 0 = a + INR i * (b - a) / 999) /\
  (xisfinite l && xisfinite u = false -> exists xs, multi_xvals supp (Pair l u) = Ok xs /\ List.length xs = 1000%nat /\
     (forall i, (i < 999)%nat -> xisfinite (nth i xs NaN) = false) /\ nth 999 xs NaN = u).
Proof.
  intros supp l u. split.
  - intros a b -> ->. exists (linspace a b 1000). split; [reflexivity|]. unfold linspace. split; [now rewrite map_length, seq_length|].
    intros i H. rewrite nth_indep with (d' := a + INR 0 * ((b - a) / INR 999)) by (rewrite map_length, seq_length; exact H).
    rewrite (map_nth (fun i => a + INR i * ((b - a) / INR 999))). rewrite seq_nth by exact H. cbn [Nat.add].
    replace (INR 999) with 999 by (rewrite INR_IZR_INZ; reflexivity). lra.
  - intro F. exists (xlinspace l u). split; [destruct l, u; try discriminate F; reflexivity|]. unfold xlinspace. split.
    + rewrite app_length, map_length, seq_length. reflexivity.
    + split; [|rewrite app_nth2; rewrite map_length, seq_length; [reflexivity|apply le_n]].
      intros i H. rewrite app_nth1 by (rewrite map_length, seq_length; exact H).
      set (f := fun i => xadd (xmul (Fin (INR i)) (xdiv (xsub u l) (Fin 999))) l).
      rewrite nth_indep with (d' := f 0%nat) by (rewrite map_length, seq_length; exact H). rewrite map_nth, seq_nth by exact H. cbn [Nat.add]. unfold f.
      assert (N : 0 <= INR i) by apply pos_INR. assert (L9 : Rltb 999 0 = false) by (apply Rltb_false; lra).
      assert (M : forall x, xisinf x = true -> xisfinite (xmul (Fin (INR i)) x) = false).
      { intros x X. destruct x; try discriminate X; cbn; unfold inf_of_sign;
          repeat match goal with |- context [Rltb ?p ?q] => destruct (Rltb p q) | |- context [Reqb ?p ?q] => destruct (Reqb p q) end; reflexivity. }
      assert (A : forall x y, xisfinite x = false -> xisfinite (xadd x y) = false) by (intros [] [] X; try discriminate X; reflexivity).
      assert (B : forall x y, xisfinite y = false -> xisfinite (xadd x y) = false) by (intros [] [] X; try discriminate X; reflexivity).
      destruct (xisfinite l) eqn:Fl; [|apply B; exact Fl]. cbn [andb] in F. apply A.
      destruct l; try discriminate Fl. destruct u; try discriminate F; cbn [xsub xadd xneg xdiv]; rewrite ?L9; first [apply M; reflexivity | reflexivity].
Qed.
(** The check box of the interactive pdf: without it the joint plot is drawn, for three components of a Dirichlet and two of an MvNormal; otherwise
    there is an exception. *)
Theorem C77_interactive_joint : forall joint lim title ms,
  interactive_dirichlet joint "pdf" false lim title ms = ([], if Nat.eqb (List.length ms) 3 then joint else Err ValueError) /\
  interactive_mvnormal joint "pdf" false lim title ms = ([], if Nat.eqb (List.length ms) 2 then joint else Err ValueError).
Proof.
  intros joint lim title ms. unfold interactive_dirichlet, interactive_mvnormal, plot_multi. cbn [String.eqb Ascii.eqb Bool.eqb].
  split; destruct (Nat.eqb _ _); reflexivity.
Qed.

(* ---------------- examples ---------------- *)
(** Two marginals uniform on (0, 1): every plot has two panels. *)
Example C77_two : forall joint p title, of_marginals p ->
  exists q1 q2, plot_as 3 joint p (Name "full") title None [unif; unif] = ([q1; q2], Ok tt) /\ shown p unif (Name "full") (shapes q1).
Proof.
  intros joint p title O. destruct (C77_panels 3 joint p (Name "full") title [unif; unif] O) as (ps & E & F).
  - cbn. lia.
  - intros m I. assert (m = unif) by (destruct I as [<-|[<-|[]]]; reflexivity). subst m.
    destruct p; cbn [shown]; unfold plot_pdf, plot_cdf, plot_sf, plot_function, xvals; cbn -[linspace]; eauto.
  - inversion F as [|? q1 ? ? A F1]; subst. inversion F1 as [|? q2 ? ? B F2]; subst. inversion F2; subst.
    exists q1, q2. split; [exact E|exact (proj1 A)].
Qed.

(** The same two marginals meet the hypotheses of the theorems on interactive plots, whose limits are then known. *)
Example C77_two_interactive : forall joint title,
  (exists q1 q2, interactive_mvnormal joint "cdf" true Both title [unif; unif] = ([q1; q2], Ok tt) /\ x_limits q1 = Some (Fin 0, Fin 1)) /\
  (exists q1 q2, interactive_mvnormal joint "ppf" true Both title [unif; unif] = ([q1; q2], Ok tt) /\ y_limits q2 = Some (Fin (- (0.999) * 0.075), Fin (0.999 * 1.5))) /\
  interactive_dirichlet joint "ppf" true Both title [unif; unif] = ([], Err ValueError).
Proof.
  intros joint title.
  assert (P : m_ppf unif (Fin 0.999) = Fin 0.999) by (cbn; rewrite !Rleb_true by lra; reflexivity).
  assert (E : finite_endpoints unif (Name "full") = Ok (Fin 0, Fin 1)) by reflexivity.
  assert (X : exists r, xvals unif (Name "restricted") = Ok r).
  { assert (Q : finite_endpoints unif (Name "restricted") = Ok (Fin (1 / 10000), Fin (9999 / 10000))) by (cbn; rewrite !Rleb_true by lra; reflexivity).
    unfold xvals. rewrite Q. cbn -[continuous_xvals]. eauto. }
  assert (U : forall m, In m [unif; unif] -> m = unif) by (intros m [<-|[<-|[]]]; reflexivity).
  split; [|split].
  - destruct (C77_interactive_cdf joint true title [unif; unif] ltac:(cbn; lia)) as (ps & A & _ & F).
    + intros m I. apply U in I. subst m. destruct X as [r X]. exists (Fin 0), (Fin 1), r. eexists. split; [exact E|]. split; [exact X|]. unfold plot_cdf, plot_function, xvals. rewrite E. cbn -[continuous_xvals]. reflexivity.
    + inversion F as [|? q1 ? ? B F1]; subst. inversion F1 as [|? q2 ? ? C F2]; subst. inversion F2; subst. exists q1, q2. split; [exact A|].
      destruct B as (_ & (e & Q & ->) & _). rewrite E in Q. congruence.
  - destruct (C77_mvnormal_ppf joint true title [unif; unif] (fun _ => 0.999) ltac:(cbn; lia)) as (ps & A & F).
    + intros m I. apply U in I. subst m. split; [exact P|]. destruct X as [r X]. exists (Fin 0), (Fin 1), r. auto.
    + inversion F as [|? q1 ? ? B F1]; subst. inversion F1 as [|? q2 ? ? C F2]; subst. inversion F2; subst. exists q1, q2. split; [exact A|apply C].
  - apply C77_dirichlet_ppf_refuted. unfold limits_of. rewrite E. destruct X as [r X]. rewrite X. cbn [bind String.eqb Ascii.eqb Bool.eqb]. eauto.
Qed.

Print Assumptions C77_interactive_pdf.
Print Assumptions C77_panels.
Print Assumptions C77_given_axes_refuted.
Print Assumptions C77_few_axes_refuted.
Print Assumptions C77_one_component_refuted.
Print Assumptions C77_joint.
Print Assumptions C77_dirichlet_ppf_refuted.
Print Assumptions C77_interactive_cdf.
Print Assumptions C77_mvnormal_ppf.
Print Assumptions C77_ppf_limits_refuted.
Print Assumptions C77_other_kinds.
Print Assumptions C77_joint_grid.
Print Assumptions C77_narrow_normal_refuted.
Print Assumptions C77_levels.
Print Assumptions C77_nothing.
Print Assumptions C77_concentrated_refuted.
Print Assumptions C77_mvnormal_sliders.
Print Assumptions C77_dirichlet_sliders.
Print Assumptions C77_unset.
Print Assumptions C77_xvals_refuted.
Print Assumptions C77_outcomes.
Print Assumptions C77_xvals_pair.
Print Assumptions C77_interactive_joint.
