(** Order facts on extended reals, consequences of [lawful], and two concrete distributions. *)
From Coq Require Import List Bool ZArith Reals Lra Lia Permutation Sorted.
From Verif Require Import Base XR LawModel LawSpec.
Import ListNotations.
Open Scope R_scope.

Lemma xle_fin a b : xle (Fin a) (Fin b) <-> a <= b.
Proof.
  unfold xle, xleb. cbn. destruct (Rltb_spec a b), (Reqb_spec a b); cbn; split; intro; try lra; try discriminate; reflexivity.
Qed.
Lemma xlt_fin a b : xlt (Fin a) (Fin b) <-> a < b.
Proof. unfold xlt. cbn. destruct (Rltb_spec a b); split; intro; try lra; try discriminate; reflexivity. Qed.
Lemma xle_number a b : xle a b -> number a /\ number b.
Proof. unfold xle, number. destruct a, b; cbn; split; congruence. Qed.
Lemma xle_refl a : number a -> xle a a.
Proof. unfold number. destruct a; intro H; try reflexivity; [|congruence]. apply xle_fin. lra. Qed.
Lemma xle_trans a b c : xle a b -> xle b c -> xle a c.
Proof.
  destruct a, b, c; try (intros; reflexivity); try (intros; discriminate);
    try (rewrite !xle_fin; intros; lra).
Qed.
Lemma xle_ninf a : number a -> xle NInf a.
Proof. unfold number. destruct a; try reflexivity; congruence. Qed.
Lemma xle_pinf a : number a -> xle a PInf.
Proof. unfold number. destruct a; try reflexivity; congruence. Qed.
Lemma xlt_le a b : xlt a b -> xle a b.
Proof. unfold xlt, xle, xleb. intros ->. reflexivity. Qed.
Lemma xle_cases a b : number a -> number b -> xle a b \/ xlt b a.
Proof.
  intros Ha Hb. destruct a as [x| | |], b as [y| | |]; try (now left); try (now right);
    try (exfalso; apply Ha; reflexivity); try (exfalso; apply Hb; reflexivity).
  destruct (Rle_lt_dec x y); [left; apply xle_fin|right; apply xlt_fin]; auto.
Qed.
Lemma xlt_not_le a b : number a -> number b -> (xlt a b <-> ~ xle b a).
Proof.
  intros Ha Hb. destruct a as [x| | |], b as [y| | |];
    try (exfalso; apply Ha; reflexivity); try (exfalso; apply Hb; reflexivity);
    try (split; [intros _ H; discriminate H | intros _; reflexivity]);
    try (split; [intro H; discriminate H| intro H; exfalso; apply H; reflexivity]).
  rewrite xlt_fin, xle_fin. lra.
Qed.
Lemma xlt_le_trans a b c : xlt a b -> xle b c -> xlt a c.
Proof.
  destruct a as [x| | |], b as [y| | |], c as [z| | |]; try (intros; reflexivity); try (intros; discriminate);
    rewrite ?xlt_fin, ?xle_fin; intros; lra.
Qed.
Lemma xle_lt_trans a b c : xle a b -> xlt b c -> xlt a c.
Proof.
  destruct a as [x| | |], b as [y| | |], c as [z| | |]; try (intros; reflexivity); try (intros; discriminate);
    rewrite ?xlt_fin, ?xle_fin; intros; lra.
Qed.
Lemma xlt_irrefl a : ~ xlt a a.
Proof. destruct a; unfold xlt; cbn; try discriminate. destruct (Rltb_spec r r); [lra|discriminate]. Qed.
Lemma xltb_false a b : number a -> number b -> (xltb a b = false <-> xle b a).
Proof.
  intros Ha Hb. destruct (xle_cases b a Hb Ha) as [H|H].
  - split; [auto|]. intros _. destruct (xltb a b) eqn:E; [|reflexivity].
    exfalso. apply (xlt_irrefl a). eapply xlt_le_trans; [exact E|exact H].
  - split; [|intro L; exfalso; apply (xlt_irrefl a); eapply xlt_le_trans; eauto].
    unfold xlt in H. congruence.
Qed.
Lemma xle_antisym a b : xle a b -> xle b a -> a = b.
Proof.
  destruct a as [x| | |], b as [y| | |]; try (intros; reflexivity); try (intros; discriminate).
  rewrite !xle_fin. intros. f_equal. lra.
Qed.
Lemma xleb_spec' a b : xleb a b = true <-> xle a b.
Proof. reflexivity. Qed.

(** Integer part. *)
Lemma Rfloor_spec r : Rfloor r <= r < Rfloor r + 1.
Proof. unfold Rfloor. destruct (base_Int_part r). lra. Qed.
Lemma Int_part_unique r z : IZR z <= r < IZR z + 1 -> Int_part r = z.
Proof.
  intros [H1 H2]. destruct (base_Int_part r) as [A B].
  assert (Int_part r < z + 1)%Z by (apply lt_IZR; rewrite plus_IZR; lra).
  assert (z < Int_part r + 1)%Z by (apply lt_IZR; rewrite plus_IZR; lra). lia.
Qed.
Lemma Rfloor_unique r z : IZR z <= r < IZR z + 1 -> Rfloor r = IZR z.
Proof. intro H. unfold Rfloor. f_equal. apply Int_part_unique, H. Qed.
Lemma Rfloor_IZR z : Rfloor (IZR z) = IZR z.
Proof. apply Rfloor_unique. lra. Qed.
Lemma Rfloor_le a b : a <= b -> Rfloor a <= Rfloor b.
Proof.
  intro H. pose proof (Rfloor_spec a). pose proof (Rfloor_spec b). unfold Rfloor in *.
  apply IZR_le. assert (Int_part a < Int_part b + 1)%Z by (apply lt_IZR; rewrite plus_IZR; lra). lia.
Qed.
Lemma Rceil_spec r : Rceil r - 1 < r <= Rceil r.
Proof. unfold Rceil. pose proof (Rfloor_spec (- r)). lra. Qed.
Lemma Rceil_IZR r : exists z, Rceil r = IZR z.
Proof. unfold Rceil, Rfloor. exists (- Int_part (- r))%Z. rewrite opp_IZR. reflexivity. Qed.
(** ceil r <= z iff r <= z for integers z. *)
Lemma Rceil_le r z : Rceil r <= IZR z <-> r <= IZR z.
Proof.
  pose proof (Rceil_spec r). split; intro H0; [lra|]. destruct (Rceil_IZR r) as [y E]. rewrite E in *.
  apply IZR_le. assert (y < z + 1)%Z by (apply lt_IZR; rewrite plus_IZR; lra). lia.
Qed.

Section Lawful.
Context {d : methods} {F : xr -> R} (L : lawful d F).

Lemma F_range x : number x -> 0 <= F x <= 1.
Proof.
  intro H. rewrite <- (l_lo _ _ L), <- (l_hi _ _ L). split; apply (l_mono _ _ L); [apply xle_ninf|apply xle_pinf]; auto.
Qed.
Lemma ppf_number q : 0 < q <= 1 -> number (m_ppf d (Fin q)).
Proof. intro H. apply (l_ppf _ _ L q H). Qed.
Lemma ppf_gal q x : 0 < q <= 1 -> number x -> (xle (m_ppf d (Fin q)) x <-> q <= F x).
Proof. intros H Hx. apply (l_ppf _ _ L q H); auto. Qed.
Lemma ppf_reaches q : 0 < q <= 1 -> q <= F (m_ppf d (Fin q)).
Proof. intro H. pose proof (ppf_number q H). apply (ppf_gal q _ H); auto. apply xle_refl; auto. Qed.
Lemma ppf_mono q q' : 0 < q -> q <= q' -> q' <= 1 -> xle (m_ppf d (Fin q)) (m_ppf d (Fin q')).
Proof.
  intros H1 H2 H3. apply ppf_gal; [lra|apply ppf_number; lra|].
  apply Rle_trans with q'; auto. apply ppf_reaches. lra.
Qed.
Lemma ppf_finite q : 0 < q < 1 -> exists r, m_ppf d (Fin q) = Fin r.
Proof.
  intro H. assert (Hq : 0 < q <= 1) by lra.
  pose proof (ppf_number q Hq) as N. pose proof (ppf_reaches q Hq) as P.
  destruct (l_tight_hi _ _ L q ltac:(lra)) as [r Hr].
  assert (xle (m_ppf d (Fin q)) (Fin r)) as Le by (apply ppf_gal; auto; discriminate).
  destruct (m_ppf d (Fin q)) as [y| | |] eqn:E; [eauto|discriminate Le| |exfalso; apply N; reflexivity].
  rewrite (l_lo _ _ L) in P. lra.
Qed.
(** Strictly below the quantile the distribution function is below q. *)
Lemma ppf_below q x : 0 < q <= 1 -> number x -> xlt x (m_ppf d (Fin q)) -> F x < q.
Proof.
  intros H Hx Hlt. apply Rnot_le_lt. intro C. apply (ppf_gal q x H Hx) in C.
  apply (xlt_irrefl x). eapply xlt_le_trans; eauto.
Qed.
(** Quantiles of an integer valued variable are integers. *)
Lemma ppf_whole q : kind_of d = Discrete -> 0 < q < 1 -> exists z, m_ppf d (Fin q) = Fin (IZR z).
Proof.
  intros K H. destruct (ppf_finite q H) as [r E]. exists (Int_part r). rewrite E. f_equal.
  destruct (l_disc _ _ L K) as [D _].
  assert (Hq : 0 < q <= 1) by lra.
  assert (A : q <= F (Fin (Rfloor r))) by (rewrite <- D, <- E; apply ppf_reaches; auto).
  apply (ppf_gal q (Fin (Rfloor r)) Hq) in A; [|discriminate]. rewrite E in A. apply xle_fin in A.
  pose proof (Rfloor_spec r). unfold Rfloor in *. lra.
Qed.
(** P(X < quantile) <= q. *)
Lemma below_ppf q : 0 < q < 1 -> below (kind_of d) F (m_ppf d (Fin q)) <= q.
Proof.
  intro H. unfold below. destruct (kind_of d) eqn:K.
  - destruct (ppf_finite q H) as [r E]. rewrite E. left. apply ppf_below; [lra|discriminate|].
    rewrite E. unfold xlt. cbn. apply Rltb_true. lra.
  - rewrite (l_cont _ _ L K q H). lra.
Qed.
End Lawful.

(* ---------------- concrete distributions ---------------- *)
(** The uniform distribution on [0, 1]. *)
Definition clip01 (r : R) : R := Rmax 0 (Rmin r 1).
Definition unif_F (x : xr) : R := match x with Fin r => clip01 r | PInf => 1 | _ => 0 end.
Definition unif_pdf (x : xr) : xr :=
  match x with Fin r => if (Rleb 0 r && Rleb r 1)%bool then Fin 1 else Fin 0 | _ => Fin 0 end.
Definition unif : methods := {|
  kind_of := Continuous;
  m_cdf := fun x => match x with NaN => NaN | _ => Fin (unif_F x) end;
  m_ppf := fun q => match q with Fin r => if (Rleb 0 r && Rleb r 1)%bool then Fin r else NaN | _ => NaN end;
  m_pdf := unif_pdf;
  m_logpdf := fun x => xlog (unif_pdf x);
  m_supp := (Fin 0, Fin 1) |}.

Lemma clip01_cases r : (r <= 0 /\ clip01 r = 0) \/ (0 <= r <= 1 /\ clip01 r = r) \/ (1 <= r /\ clip01 r = 1).
Proof.
  unfold clip01, Rmax, Rmin. repeat destruct (Rle_dec _ _);
    first [left; split; lra | right; left; split; lra | right; right; split; lra].
Qed.

Lemma unif_lawful : lawful unif unif_F.
Proof.
  constructor.
  - intros x Hx. destruct x; try reflexivity. exfalso; apply Hx; reflexivity.
  - intros x y H. destruct x as [a| | |], y as [b| | |]; try discriminate H; cbn; try lra.
    + apply xle_fin in H. pose proof (clip01_cases a). pose proof (clip01_cases b). lra.
    + pose proof (clip01_cases a). lra.
    + pose proof (clip01_cases b). lra.
  - reflexivity.
  - reflexivity.
  - intros q Hq. exists 0. cbn. pose proof (clip01_cases 0). lra.
  - intros q Hq. exists 1. cbn. pose proof (clip01_cases 1). lra.
  - intros q Hq. cbn. rewrite !Rleb_true by lra. cbn. split; [discriminate|].
    intros x Hx. destruct x as [a| | |].
    + rewrite xle_fin. cbn. pose proof (clip01_cases a). lra.
    + cbn. split; intro; [lra|reflexivity].
    + cbn. split; intro H; [discriminate H|lra].
    + exfalso; apply Hx; reflexivity.
  - reflexivity.
  - discriminate.
  - intros _ q Hq. cbn. rewrite !Rleb_true by lra. cbn. pose proof (clip01_cases q). lra.
Qed.

(** A fair die with faces 1..n. *)
Definition die_F (n : Z) (x : xr) : R :=
  match x with Fin r => clip01 (Rfloor r / IZR n) | PInf => 1 | _ => 0 end.
Definition die_pdf (n : Z) (x : xr) : xr :=
  match x with
  | Fin r => if Reqb r (Rfloor r) then Fin (die_F n (Fin r) - die_F n (Fin (r - 1))) else Fin 0
  | _ => Fin 0
  end.
Definition die (n : Z) : methods := {|
  kind_of := Discrete;
  m_cdf := fun x => match x with NaN => NaN | _ => Fin (die_F n x) end;
  m_ppf := fun q => match q with Fin r => if (Rleb 0 r && Rleb r 1)%bool then Fin (Rceil (r * IZR n)) else NaN | _ => NaN end;
  m_pdf := die_pdf n;
  m_logpdf := fun x => xlog (die_pdf n x);
  m_supp := (Fin 1, Fin (IZR n)) |}.

Lemma die_lawful n : (0 < n)%Z -> lawful (die n) (die_F n).
Proof.
  intro Hn. assert (Hn' : 0 < IZR n) by (apply IZR_lt; auto).
  assert (G : forall q x, 0 < q <= 1 -> number x -> (xle (Fin (Rceil (q * IZR n))) x <-> q <= die_F n x)).
  { intros q x Hq Hx. destruct x as [a| | |].
    - rewrite xle_fin. cbn.
      assert (E : Rceil (q * IZR n) <= a <-> q <= Rfloor a / IZR n).
      { assert (M : q <= Rfloor a / IZR n <-> q * IZR n <= Rfloor a).
        { split; intro H.
          - apply Rmult_le_reg_r with (/ IZR n); [apply Rinv_0_lt_compat; auto|].
            rewrite Rmult_assoc, Rinv_r by lra. unfold Rdiv in H. lra.
          - apply Rmult_le_reg_r with (IZR n); auto. unfold Rdiv. rewrite Rmult_assoc, Rinv_l by lra. lra. }
        rewrite M. unfold Rfloor at 1. rewrite <- Rceil_le. fold (Rfloor a).
        destruct (Rceil_IZR (q * IZR n)) as [z Ez]. rewrite Ez. split; intro H.
        - rewrite <- (Rfloor_IZR z). apply Rfloor_le, H.
        - pose proof (Rfloor_spec a). unfold Rfloor in *. lra. }
      rewrite E. pose proof (clip01_cases (Rfloor a / IZR n)). lra.
    - cbn. split; intro; [lra|reflexivity].
    - cbn. split; intro H; [discriminate H|lra].
    - exfalso; apply Hx; reflexivity. }
  constructor.
  - intros x Hx. destruct x; try reflexivity. exfalso; apply Hx; reflexivity.
  - intros x y H. destruct x as [a| | |], y as [b| | |]; try discriminate H; cbn; try lra.
    + apply xle_fin, Rfloor_le in H.
      assert (Rfloor a / IZR n <= Rfloor b / IZR n).
      { apply Rmult_le_compat_r; [left; apply Rinv_0_lt_compat; auto|auto]. }
      pose proof (clip01_cases (Rfloor a / IZR n)). pose proof (clip01_cases (Rfloor b / IZR n)). lra.
    + pose proof (clip01_cases (Rfloor a / IZR n)). lra.
    + pose proof (clip01_cases (Rfloor b / IZR n)). lra.
  - reflexivity.
  - reflexivity.
  - intros q Hq. exists 0. cbn. rewrite (Rfloor_IZR 0). replace (0 / IZR n) with 0 by (field; lra).
    pose proof (clip01_cases 0). lra.
  - intros q Hq. exists (IZR n). cbn. rewrite Rfloor_IZR. replace (IZR n / IZR n) with 1 by (field; lra).
    pose proof (clip01_cases 1). lra.
  - intros q Hq. cbn. rewrite !Rleb_true by lra. cbn. split; [discriminate|]. intros x Hx. apply G; auto.
  - reflexivity.
  - intros _. split.
    + intro r. cbn. unfold die_F. replace (Rfloor (Rfloor r)) with (Rfloor r); [reflexivity|].
      symmetry. unfold Rfloor at 2. apply Rfloor_IZR.
    + intro z. cbn. rewrite Rfloor_IZR, Reqb_refl. reflexivity.
  - discriminate.
Qed.
