(** C60: highest density intervals and summaries. *)
From Coq Require Import List Bool String Reals ZArith Lra Lia Permutation.
From Verif Require Import Base XR LawModel LawSpec LawProofs LawProps ModModel HdiModel HdiSpec.
Import ListNotations.
Open Scope R_scope.

(* ------------------------------------------------------------ continuous distributions *)
Section Continuous.
Variables (d : methods) (F : xr -> R).
Hypothesis L : lawful d F.
Hypothesis K : kind_of d = Continuous.
Hypothesis SU : supported d F.

Lemma eti_values mass : 0 < mass < 1 -> exists a b,
  eti true true true d (Fin mass) (Some (Fin mass)) None = Ok (Fin a, Fin b) /\ a <= b /\ F (Fin b) - F (Fin a) = mass /\
  xle (fst (m_supp d)) (Fin a) /\ xle (Fin b) (snd (m_supp d)).
Proof using L K SU.
  intro Hm. destruct SU as (N1 & N2 & U & B).
  destruct (ppf_finite L ((1 - mass) / 2) ltac:(lra)) as [a Ea]. destruct (ppf_finite L (1 - (1 - mass) / 2) ltac:(lra)) as [b Eb].
  exists a, b. split; [|split; [|split; [|split]]].
  - unfold eti. cbn [negb].
    replace (xdiv (xsub (Fin 1) (Fin mass)) (Fin 2)) with (Fin ((1 - mass) / 2)) by (cbn; rewrite Reqb_false by lra; f_equal; field).
    replace (xsub (Fin 1) (Fin ((1 - mass) / 2))) with (Fin (1 - (1 - mass) / 2)) by (cbn; f_equal; ring).
    now rewrite K, Ea, Eb.
  - apply xle_fin. rewrite <- Ea, <- Eb. apply (ppf_mono L); lra.
  - rewrite <- Ea, <- Eb, !(l_cont _ _ L K) by lra. field.
  - destruct (xle_cases (fst (m_supp d)) (Fin a) N1 ltac:(discriminate)) as [|X]; [assumption|]. exfalso.
    specialize (B _ X). pose proof (ppf_reaches L ((1 - mass) / 2) ltac:(lra)) as R0. rewrite Ea, B in R0. lra.
  - rewrite <- Eb. apply (ppf_gal L); [lra|exact N2|]. rewrite U. lra.
Qed.

Lemma allowed_fin mass p len : allowed (interval_loss d (Fin 0) mass) (m_supp d) p -> xle (interval_short p) (Fin len) ->
  exists a b, p = (Fin a, Fin b) /\ a <= b /\ F (Fin b) - F (Fin a) = mass /\ b - a <= len /\ interval_short p = Fin (b - a).
Proof using L.
  destruct p as [x y]. intros (C & A1 & A2 & A3 & A4) S. cbn [fst snd] in *.
  apply xle_number in A1. apply xle_number in A4. destruct A1 as [_ Nx], A4 as [Ny _].
  unfold interval_short in S. cbn [fst snd] in S.
  destruct (xltb y x) eqn:E; [discriminate S|]. apply xltb_false in E; [|assumption|assumption].
  destruct x as [a| | |], y as [b| | |]; try discriminate S; try discriminate E; try (now destruct (Nx eq_refl)); try (now destruct (Ny eq_refl)).
  apply xle_fin in E. exists a, b. split; [reflexivity|]. split; [exact E|].
  unfold interval_loss in C. cbn [fst snd] in C. rewrite !(l_cdf _ _ L) in C by discriminate. cbn in C. injection C as C.
  split; [lra|]. apply xle_fin in S. split; [lra|].
  unfold interval_short. cbn [fst snd]. destruct (Rltb_spec b a) as [X|X]; cbn; destruct (Rltb_spec b a); try lra; f_equal; lra.
Qed.

Variable minimize : (xr * xr -> xr) -> (xr * xr -> xr) -> xr * xr -> xr * xr -> xr * xr.
Variable descending : list (Z * R) -> list (Z * R).
Hypothesis IM : improves minimize.
Lemma hdi_found mass : 0 < mass < 1 -> exists lo hi a b,
  find_hdi minimize descending false d mass = Ok (Fin lo, Fin hi) /\
  eti true true true d (Fin mass) (Some (Fin mass)) None = Ok (Fin a, Fin b) /\
  lo <= hi /\ F (Fin hi) - F (Fin lo) = mass /\ hi - lo <= b - a /\
  allowed (interval_loss d (Fin 0) mass) (m_supp d) (Fin lo, Fin hi) /\
  allowed (interval_loss d (Fin 0) mass) (m_supp d) (Fin a, Fin b) /\
  minimize interval_short (interval_loss d (Fin 0) mass) (Fin a, Fin b) (m_supp d) = (Fin lo, Fin hi).
Proof using L K SU IM.
  intro Hm. destruct (eti_values mass Hm) as (a & b & E & AB & M & S1 & S2).
  assert (A0 : allowed (interval_loss d (Fin 0) mass) (m_supp d) (Fin a, Fin b)).
  { split; [|cbn [fst snd]; repeat split; try assumption].
    - unfold interval_loss. cbn [fst snd]. rewrite !(l_cdf _ _ L) by discriminate. cbn. f_equal. lra.
    - eapply xle_trans; [apply xle_fin, AB|exact S2].
    - eapply xle_trans; [exact S1|apply xle_fin, AB]. }
  assert (I0 : interval_short (Fin a, Fin b) = Fin (b - a)).
  { unfold interval_short. cbn [fst snd]. cbn. destruct (Rltb_spec b a); [lra|]. f_equal; lra. }
  destruct (IM interval_short (interval_loss d (Fin 0) mass) (Fin a, Fin b) (m_supp d)) as [A1 A2]; [rewrite I0; discriminate|exact A0|].
  rewrite I0 in A2. destruct (allowed_fin mass _ _ A1 A2) as (lo & hi & P & Q1 & Q2 & Q3 & _).
  exists lo, hi, a, b. split; [|split; [exact E|split; [exact Q1|split; [exact Q2|split; [exact Q3|split; [rewrite <- P; exact A1|split; [exact A0|exact P]]]]]]].
  unfold find_hdi. rewrite K. unfold continuous_hdi. destruct (m_supp d) as [sl su] eqn:Es. rewrite E. cbn [bind]. now rewrite P.
Qed.
End Continuous.

(** For a continuous distribution, hdi has exactly the requested mass and is never wider than the equal-tailed interval,
    whatever the minimiser does as long as it does not make its start worse: the start is an interval with that mass. *)
Theorem C60_no_wider_than_eti : forall d F minimize descending mass, lawful d F -> kind_of d = Continuous -> supported d F ->
  improves minimize -> 0 < mass < 1 ->
  exists lo hi a b, hdi minimize descending true true true false d mass (Some mass) None = Ok (Fin lo, Fin hi) /\
    eti true true true d (Fin mass) (Some (Fin mass)) None = Ok (Fin a, Fin b) /\
    lo <= hi /\ between (kind_of d) F (Fin lo) (Fin hi) = mass /\ hi - lo <= b - a.
Proof.
  intros d F mi ds mass L K SU IM Hm. destruct (hdi_found d F L K SU mi ds IM mass Hm) as (lo & hi & a & b & H & E & O & M & W & _).
  exists lo, hi, a, b. unfold hdi. cbn [negb]. rewrite H, E, K. cbn [bind fst snd]. repeat split; auto.
Qed.
Example C60_improves_example : improves (fun _ _ x0 _ => x0) /\ supported unif unif_F.
Proof.
  split.
  - intros f c x0 b N H. split; [exact H|now apply xle_refl].
  - repeat split; try discriminate; cbn.
    + pose proof (clip01_cases 1). lra.
    + intros [x| | |] Hx; try discriminate Hx; [|reflexivity]. apply (xlt_fin x 0) in Hx. change (clip01 x = 0).
      destruct (clip01_cases x) as [[_ E]|[[X _]|[X _]]]; [exact E|lra|lra].
Qed.

(** If moreover the minimiser finds a minimum, no interval inside the support with that mass is shorter. *)
Definition finds_minimum (minimize : (xr * xr -> xr) -> (xr * xr -> xr) -> xr * xr -> xr * xr -> xr * xr) (d : methods) (mass : R) : Prop := forall x0 p,
  allowed (interval_loss d (Fin 0) mass) (m_supp d) x0 ->
  minimize interval_short (interval_loss d (Fin 0) mass) x0 (m_supp d) = p ->
  forall q, allowed (interval_loss d (Fin 0) mass) (m_supp d) q -> xle (interval_short p) (interval_short q).
Lemma allowed_interval : forall d F mass a b, lawful d F -> a <= b -> F (Fin b) - F (Fin a) = mass ->
  xle (fst (m_supp d)) (Fin a) -> xle (Fin b) (snd (m_supp d)) -> allowed (interval_loss d (Fin 0) mass) (m_supp d) (Fin a, Fin b).
Proof.
  intros d F mass a b L AB M S1 S2. split; [|cbn [fst snd]; repeat split; try assumption].
  - unfold interval_loss. cbn [fst snd]. rewrite !(l_cdf _ _ L) by discriminate. cbn. f_equal. lra.
  - eapply xle_trans; [apply xle_fin, AB|exact S2].
  - eapply xle_trans; [exact S1|apply xle_fin, AB].
Qed.
Lemma short_fin : forall a b, a <= b -> interval_short (Fin a, Fin b) = Fin (b - a).
Proof. intros a b H. unfold interval_short. cbn [fst snd]. cbn. destruct (Rltb_spec b a); [lra|]. f_equal; lra. Qed.
Theorem C60_shortest : forall d F minimize descending mass lo hi, lawful d F -> kind_of d = Continuous -> supported d F ->
  improves minimize -> finds_minimum minimize d mass -> 0 < mass < 1 ->
  hdi minimize descending true true true false d mass (Some mass) None = Ok (Fin lo, Fin hi) ->
  forall a b, a <= b -> xle (fst (m_supp d)) (Fin a) -> xle (Fin b) (snd (m_supp d)) ->
  between (kind_of d) F (Fin a) (Fin b) = mass -> hi - lo <= b - a.
Proof.
  intros d F mi ds mass lo hi L K SU IM FM Hm H a b AB S1 S2 M.
  destruct (hdi_found d F L K SU mi ds IM mass Hm) as (lo' & hi' & a' & b' & H' & E & O & M' & W & AL & A0 & MI).
  unfold hdi in H. cbn [negb] in H. rewrite H', K in H. cbn [bind] in H. injection H as <- <-.
  unfold between, below in M. rewrite K in M.
  pose proof (FM _ _ A0 MI _ (allowed_interval d F mass a b L AB M S1 S2)) as X.
  rewrite !short_fin in X by assumption. now apply xle_fin in X.
Qed.

(** On the uniform distribution every interval with the requested mass is equally short, so the start is a minimum. *)
Example C60_shortest_example : forall mass, 0 < mass < 1 -> improves (fun _ _ x0 _ => x0) /\ finds_minimum (fun _ _ x0 _ => x0) unif mass /\
  exists lo hi, hdi (fun _ _ x0 _ => x0) (fun l => l) true true true false unif mass (Some mass) None = Ok (Fin lo, Fin hi) /\ hi - lo = mass.
Proof.
  intros mass Hm. destruct C60_improves_example as [IM SU]. split; [exact IM|].
  assert (W : forall q, allowed (interval_loss unif (Fin 0) mass) (m_supp unif) q -> interval_short q = Fin mass).
  { intros [a b] (C & A1 & A2 & B1 & B2). cbn [m_supp unif fst snd] in *. destruct a as [a| | |]; try discriminate; destruct b as [b| | |]; try discriminate.
    apply xle_fin in A1, A2, B1, B2. unfold interval_loss in C. cbn [fst snd m_cdf unif] in C. cbn in C. injection C as C.
    destruct (clip01_cases a) as [[X E1]|[[X E1]|[X E1]]]; destruct (clip01_cases b) as [[Y E2]|[[Y E2]|[Y E2]]];
      rewrite E1, E2 in C; rewrite short_fin by lra; f_equal; lra. }
  split.
  - intros x0 p A <- q B. rewrite (W _ A), (W _ B). apply xle_fin. lra.
  - destruct (hdi_found unif unif_F unif_lawful eq_refl SU (fun _ _ x0 _ => x0) (fun l => l) IM mass Hm) as (lo & hi & a & b & H & _ & O & M & _ & AL & _).
    exists lo, hi. unfold hdi. cbn [negb]. rewrite H. cbn [bind kind_of unif]. split; [reflexivity|].
    specialize (W _ AL). rewrite short_fin in W by exact O. injection W as W. exact W.
Qed.

(** What the shortest interval is good for: if the density has one mode, every point inside has at least the density of every
    point outside. *)
Lemma slope_bounds : forall (G f : R -> R) a b c, a < b -> continuity G ->
  (forall x, a < x < b -> derivable_pt_lim G x (f x)) ->
  ((forall x, a < x < b -> f x < c) -> G b - G a < c * (b - a)) /\
  ((forall x, a < x < b -> c < f x) -> c * (b - a) < G b - G a).
Proof.
  intros G f a b c AB CG D.
  assert (P1 : forall x, a < x < b -> derivable_pt G x) by (intros x Hx; exists (f x); now apply D).
  assert (P2 : forall x, a < x < b -> derivable_pt id x) by (intros x _; apply derivable_pt_id).
  destruct (MVT G id a b P1 P2 AB) as [x [Hx E]].
  { intros x _. apply CG. } { intros x _. apply derivable_continuous_pt, derivable_pt_id. }
  assert (E1 : derive_pt G x (P1 x Hx) = f x) by (apply derive_pt_eq; now apply D).
  assert (E2 : derive_pt id x (P2 x Hx) = 1) by (apply derive_pt_eq, derivable_pt_lim_id).
  rewrite E1, E2 in E. unfold id in E. split; intro H; specialize (H x Hx); nra.
Qed.
Lemma can_shift_right : forall (G f : R -> R) l u y c, l < u -> u < y -> continuity G ->
  (forall x, l < x < y -> derivable_pt_lim G x (f x)) ->
  (exists x, l < x /\ x <= u /\ forall z, l < z < x -> f z < c) -> (forall z, u < z < y -> c < f z) ->
  (forall z, u < z < y -> 0 <= f z) -> (forall z, l < z < u -> 0 < f z) ->
  exists a b, l < a /\ a <= b /\ b < y /\ G b - G a = G u - G l /\ b - a < u - l.
Proof.
  intros G f l u y c LU UY CG D (x & LX & XU & Low) High Pos Pos2.
  set (e := Rmin (x - l) (y - u) / 2).
  assert (E0 : 0 < e) by (unfold e, Rmin; destruct (Rle_dec _ _); lra).
  assert (E1 : e < x - l) by (unfold e, Rmin in *; destruct (Rle_dec _ _); lra).
  assert (E2 : e < y - u) by (unfold e, Rmin in *; destruct (Rle_dec _ _); lra).
  destruct (slope_bounds G f l (l + e) c ltac:(lra) CG) as [A _]; [intros z Hz; apply D; lra|].
  specialize (A ltac:(intros z Hz; apply Low; lra)).
  destruct (slope_bounds G f u (u + e) c ltac:(lra) CG) as [_ B]; [intros z Hz; apply D; lra|].
  specialize (B ltac:(intros z Hz; apply High; lra)).
  destruct (slope_bounds G f l (l + e) 0 ltac:(lra) CG) as [_ P]; [intros z Hz; apply D; lra|].
  specialize (P ltac:(intros z Hz; apply Pos2; lra)).
  set (r := G (l + e) - G l). 
  destruct (IVT (fun t => G t - (G u + r)) u (u + e)) as [b [[B1 B2] B3]].
  { intro t. apply continuity_pt_minus; [apply CG|apply continuity_pt_const; intros ? ?; reflexivity]. }
  { lra. } { unfold r. lra. } { unfold r. nra. }
  cbn in B3. exists (l + e), b. repeat split; try lra.
  - unfold r in B3. lra.
  - destruct (Req_dec b (u + e)) as [->|N]; [exfalso; unfold r in B3; nra|lra].
Qed.

Theorem C60_highest_density : forall d F f lo hi mass, lawful d F -> density d F f -> one_mode d f ->
  (forall x, interior d x -> 0 < f x) -> lo < hi -> xle (fst (m_supp d)) (Fin lo) -> xle (Fin hi) (snd (m_supp d)) ->
  F (Fin hi) - F (Fin lo) = mass ->
  (forall a b, a <= b -> xle (fst (m_supp d)) (Fin a) -> xle (Fin b) (snd (m_supp d)) -> F (Fin b) - F (Fin a) = mass -> hi - lo <= b - a) ->
  forall x y, lo < x < hi -> interior d y -> (y < lo \/ hi < y) -> f y <= f x.
Proof.
  intros d F f lo hi mass L [CF DF] OM Pos LH S1 S2 M Min x y Hx Iy Hy.
  assert (Between : forall z, lo < z < hi -> interior d z).
  { intros z Hz. split; [eapply xle_lt_trans; [exact S1|apply xlt_fin; lra]|eapply xlt_le_trans; [apply xlt_fin; exact (proj2 Hz)|exact S2]]. }
  assert (Conv : forall a b z, interior d a -> interior d b -> a <= z <= b -> interior d z).
  { intros a b z [A1 A2] [B1 B2] Hz. split.
    - eapply xlt_le_trans; [exact A1|apply xle_fin; lra].
    - eapply xle_lt_trans; [apply xle_fin; exact (proj2 Hz)|exact B2]. }
  destruct (Rle_or_lt (f y) (f x)) as [|Bad]; [assumption|exfalso].
  set (G := fun r => F (Fin r)).
  destruct Hy as [Hy|Hy].
  - (* y on the left: mirror *)
    set (G' := fun r => - G (- r)). set (f' := fun r => f (- r)).
    assert (DG : forall z, interior d (- z) -> derivable_pt_lim G' z (f' z)).
    { intros z Iz. unfold G', f'. replace (f (- z)) with (- (f (- z) * - 1)) by ring.
      apply derivable_pt_lim_opp. apply (derivable_pt_lim_comp (fun r => - r) G z (- 1) (f (- z))).
      - replace (- (1)) with (- 1) by ring. apply (derivable_pt_lim_opp id z 1), derivable_pt_lim_id.
      - apply DF. exact Iz. }
    destruct (can_shift_right G' f' (- hi) (- lo) (- y) (f x)) as (a & b & A1 & A2 & A3 & A4 & A5); try lra.
    + intro t. unfold G'. apply continuity_pt_opp. apply (continuity_pt_comp (fun r => - r) G); [|apply CF].
      apply continuity_pt_opp, derivable_continuous_pt, derivable_pt_id.
    + intros z Hz. apply DG. apply (Conv y x); [exact Iy|now apply Between| | ] || idtac.
      destruct (Rlt_or_le (- z) x) as [Z|Z]; [apply (Conv y x); [exact Iy|now apply Between|lra]|apply Between; lra].
    + exists (- x). repeat split; try lra. intros z Hz. unfold f'.
      pose proof (OM y x (- z) Iy (Between (- z) ltac:(lra)) ltac:(lra)) as Q. unfold Rmin in Q. destruct (Rle_dec _ _); lra.
    + intros z Hz. unfold f'. pose proof (OM y (- z) x Iy (Between x Hx) ltac:(lra)) as Q. unfold Rmin in Q. destruct (Rle_dec _ _); lra.
    + intros z Hz. left. apply Pos. apply (Conv y x); [exact Iy|now apply Between|lra].
    + intros z Hz. apply Pos, Between. lra.
    + unfold G', G in A4. rewrite !Ropp_involutive in A4.
      assert (T : hi - lo <= (- a) - (- b)); [|lra]. apply Min; try lra.
      * eapply xle_trans; [apply xlt_le, (proj1 Iy)|apply xle_fin; lra].
      * eapply xle_trans; [apply xle_fin|exact S2]. lra.
  - destruct (can_shift_right G f lo hi y (f x)) as (a & b & A1 & A2 & A3 & A4 & A5); try lra.
    + exact CF.
    + intros z Hz. apply DF. destruct (Rlt_or_le z x) as [Z|Z]; [apply Between; lra|apply (Conv x y); [now apply Between|exact Iy|lra]].
    + exists x. repeat split; try lra. intros z Hz.
      pose proof (OM z x y (Between z ltac:(lra)) Iy ltac:(lra)) as Q. unfold Rmin in Q. destruct (Rle_dec _ _); lra.
    + intros z Hz. pose proof (OM x z y (Between x Hx) Iy ltac:(lra)) as Q. unfold Rmin in Q. destruct (Rle_dec _ _); lra.
    + intros z Hz. left. apply Pos. apply (Conv x y); [now apply Between|exact Iy|lra].
    + intros z Hz. apply Pos, Between. lra.
    + assert (T : hi - lo <= b - a); [|lra]. apply Min; try lra.
      * eapply xle_trans; [exact S1|apply xle_fin; lra].
      * eapply xle_trans; [|apply xlt_le, (proj2 Iy)]. apply xle_fin. lra.
      * unfold G in A4. lra.
Qed.

(** The hypotheses are met by the distribution with density 2x on (0, 1) and the interval (1/2, 1). *)
Definition ramp_F (x : xr) : R := match x with Fin r => clip01 r * clip01 r | PInf => 1 | _ => 0 end.
Definition ramp_pdf (x : xr) : xr := match x with Fin r => if (Rleb 0 r && Rleb r 1)%bool then Fin (2 * r) else Fin 0 | _ => Fin 0 end.
Definition ramp : methods := {|
  kind_of := Continuous;
  m_cdf := fun x => match x with NaN => NaN | _ => Fin (ramp_F x) end;
  m_ppf := fun q => match q with Fin r => if (Rleb 0 r && Rleb r 1)%bool then Fin (sqrt r) else NaN | _ => NaN end;
  m_pdf := ramp_pdf;
  m_logpdf := fun x => xlog (ramp_pdf x);
  m_supp := (Fin 0, Fin 1) |}.
Lemma clip01_range : forall r, 0 <= clip01 r <= 1.
Proof. intro r. pose proof (clip01_cases r). lra. Qed.
Lemma clip01_mono : forall a b, a <= b -> clip01 a <= clip01 b.
Proof. intros a b H. pose proof (clip01_cases a). pose proof (clip01_cases b). lra. Qed.
Lemma ramp_lawful : lawful ramp ramp_F.
Proof.
  constructor.
  - intros x Hx. destruct x; try reflexivity. exfalso; apply Hx; reflexivity.
  - intros x y H. destruct x as [a| | |], y as [b| | |]; try discriminate H; cbn; try lra.
    + apply xle_fin in H. pose proof (clip01_mono a b H). pose proof (clip01_range a). pose proof (clip01_range b). nra.
    + pose proof (clip01_range a). nra.
    + pose proof (clip01_range b). nra.
  - reflexivity.
  - reflexivity.
  - intros q Hq. exists 0. cbn. pose proof (clip01_cases 0). assert (clip01 0 = 0) as -> by lra. lra.
  - intros q Hq. exists 1. cbn. pose proof (clip01_cases 1). assert (clip01 1 = 1) as -> by lra. lra.
  - intros q Hq. cbn. rewrite !Rleb_true by lra. cbn. split; [discriminate|].
    pose proof (sqrt_sqrt q ltac:(lra)) as SS. pose proof (sqrt_pos q) as SP.
    intros x Hx. destruct x as [a| | |].
    + rewrite xle_fin. cbn. pose proof (clip01_cases a). pose proof (clip01_range a). split; intro H1.
      * assert (sqrt q <= clip01 a) by (assert (sqrt q <= 1) by nra; lra). nra.
      * assert (sqrt q <= clip01 a) by nra. assert (0 < sqrt q) by (apply sqrt_lt_R0; lra). lra.
    + cbn. split; intro; [lra|reflexivity].
    + cbn. split; intro H; [discriminate H|lra].
    + exfalso; apply Hx; reflexivity.
  - reflexivity.
  - discriminate.
  - intros _ q Hq. cbn. rewrite !Rleb_true by lra. cbn.
    pose proof (sqrt_sqrt q ltac:(lra)). pose proof (sqrt_pos q). pose proof (clip01_cases (sqrt q)).
    assert (sqrt q <= 1) by nra. assert (clip01 (sqrt q) = sqrt q) as -> by lra. lra.
Qed.
Lemma ramp_interior : forall x, interior ramp x <-> 0 < x < 1.
Proof. intro x. unfold interior. cbn [ramp m_supp fst snd]. rewrite !xlt_fin. tauto. Qed.
Example C60_highest_density_applies : lawful ramp ramp_F /\ density ramp ramp_F (fun x => 2 * x) /\ one_mode ramp (fun x => 2 * x) /\
  (forall x, interior ramp x -> 0 < 2 * x) /\ ramp_F (Fin 1) - ramp_F (Fin (1 / 2)) = 3 / 4 /\
  (forall a b, a <= b -> xle (fst (m_supp ramp)) (Fin a) -> xle (Fin b) (snd (m_supp ramp)) -> ramp_F (Fin b) - ramp_F (Fin a) = 3 / 4 -> 1 - 1 / 2 <= b - a).
Proof.
  assert (C1 : forall x, 0 <= x <= 1 -> clip01 x = x) by (intros x Hx; pose proof (clip01_cases x); lra).
  split; [exact ramp_lawful|]. split; [split|split; [|split; [|split]]].
  - intro t. unfold ramp_F. apply (continuity_pt_mult clip01 clip01).
    all: intros e He; exists e; split; [exact He|]; intros x [_ Hx]; cbn in *; unfold R_dist in *;
      pose proof (clip01_cases x); pose proof (clip01_cases t); unfold Rabs in *; repeat destruct (Rcase_abs _); lra.
  - intros x Hx. apply ramp_interior in Hx. unfold ramp_F.
    intros e He. destruct (derivable_pt_lim_mult id id x 1 1 (derivable_pt_lim_id x) (derivable_pt_lim_id x) e He) as [del Hd].
    assert (Hm : 0 < Rmin del (Rmin x (1 - x))) by (pose proof (cond_pos del); unfold Rmin; repeat destruct (Rle_dec _ _); lra).
    exists (mkposreal _ Hm). intros h H0 Hh. cbn in Hh.
    assert (Hh1 : Rabs h < del /\ Rabs h < x /\ Rabs h < 1 - x) by (unfold Rmin in Hh; repeat destruct (Rle_dec _ _); lra).
    assert (0 <= x + h <= 1) by (unfold Rabs in Hh1; destruct (Rcase_abs h); lra).
    rewrite !C1 by lra. specialize (Hd h H0 ltac:(tauto)). unfold mult_fct, id in Hd.
    replace (2 * x) with (1 * x + x * 1) by ring. exact Hd.
  - intros x y z Hx Hz H. apply ramp_interior in Hx, Hz. unfold Rmin. destruct (Rle_dec _ _); lra.
  - intros x Hx. apply ramp_interior in Hx. lra.
  - cbn. rewrite !C1 by lra. lra.
  - intros a b AB A B M. cbn [ramp m_supp fst snd] in A, B. apply xle_fin in A, B. cbn in M. rewrite !C1 in M by lra.
    assert (a <= 1 / 2) by nra. nra.
Qed.

(* ------------------------------------------------------------ censored distributions *)
(** For a censored distribution the masses at both bounds are counted even if the interval does not reach the bounds. For a
    Uniform(0, 1) censored at 0.2 and 0.8 the problem posed for a mass of 0.9 has the solution (0.25, 0.75), which holds half
    of the probability. *)
Theorem C60_censored_refuted : exists minimize,
  let d := censored unif (Fin (1 / 5)) (Fin (4 / 5)) in
  let lo := Fin (1 / 4) in let hi := Fin (3 / 4) in
  (forall descending, hdi minimize descending true true true true d (9 / 10) (Some (9 / 10)) None = Ok (lo, hi)) /\
  (let c := interval_loss d (xadd (m_pdf d (Fin (1 / 5))) (m_pdf d (Fin (4 / 5)))) (9 / 10) in
   allowed c (m_supp d) (lo, hi) /\ forall q, allowed c (m_supp d) q -> xle (interval_short (lo, hi)) (interval_short q)) /\
  between Continuous unif_F lo hi = 1 / 2.
Proof.
  exists (fun _ _ _ _ => (Fin (1 / 4), Fin (3 / 4))). intros d lo hi.
  assert (C1 : forall x, 0 <= x <= 1 -> clip01 x = x) by (intros x Hx; pose proof (clip01_cases x); lra).
  assert (SUP : m_supp d = (Fin (1 / 5), Fin (4 / 5))).
  { unfold d, censored, c_bounds. cbn. unfold np_maximum, np_minimum. cbn.
    destruct (Rltb_spec 0 (1 / 5)); [|lra]. destruct (Rltb_spec (4 / 5) 1); [|lra]. reflexivity. }
  assert (CDF : forall x, 1 / 5 <= x <= 4 / 5 -> m_cdf d (Fin x) = Fin x).
  { intros x Hx. unfold d, censored. rewrite <- (C1 x ltac:(lra)) at 2.
    unfold c_bounds, np_maximum, np_minimum. cbn.
    destruct (Rltb_spec 0 (1 / 5)); [|lra]. destruct (Rltb_spec (4 / 5) 1); [|lra]. unfold c_cdf. cbn.
    destruct (Rltb_spec x (1 / 5)); [lra|]. destruct (Rltb_spec (4 / 5) x); [lra|]. reflexivity. }
  assert (PDF : m_pdf d (Fin (1 / 5)) = Fin (1 / 5) /\ m_pdf d (Fin (4 / 5)) = Fin (1 / 5)).
  { unfold d, censored, c_bounds, np_maximum, np_minimum. cbn.
    destruct (Rltb_spec 0 (1 / 5)); [|lra]. destruct (Rltb_spec (4 / 5) 1); [|lra]. cbn -[xlog xexp].
    split; unfold c_logpdf; cbn -[xlog xexp].
    - destruct (Rltb_spec (1 / 5) (1 / 5)); [lra|]. destruct (Rltb_spec (4 / 5) (1 / 5)); [lra|].
      rewrite (Reqb_refl (1 / 5)), (Reqb_false (1 / 5) (4 / 5)) by lra. unfold unif_F. rewrite C1 by lra. cbn.
      destruct (Rltb_spec 0 (1 / 5)); [|lra]. cbn. now rewrite exp_ln by lra.
    - destruct (Rltb_spec (4 / 5) (1 / 5)); [lra|]. destruct (Rltb_spec (4 / 5) (4 / 5)); [lra|].
      rewrite (Reqb_refl (4 / 5)). unfold unif_F. rewrite C1 by lra. cbn.
      destruct (Rltb_spec 0 (1 + - (4 / 5))); [|lra]. cbn. rewrite exp_ln by lra. f_equal. lra. }
  destruct PDF as [P1 P2].
  assert (KD : kind_of d = Continuous) by reflexivity.
  split; [|split].
  - intro descending. unfold hdi. cbn [negb]. unfold find_hdi. rewrite KD. unfold continuous_hdi. rewrite SUP.
    unfold eti. cbn [negb]. rewrite KD. reflexivity.
  - rewrite P1, P2. intro c. split.
    + rewrite SUP. split; [|cbn [fst snd]; unfold lo, hi; rewrite !xle_fin; lra].
      unfold c, interval_loss. cbn [fst snd]. unfold lo, hi. rewrite !CDF by lra. cbn. f_equal. lra.
    + intros [x y] (C & A1 & A2 & A3 & A4). rewrite SUP in *. cbn [fst snd] in *.
      destruct x as [x| | |]; try discriminate A1; try discriminate A2. destruct y as [y| | |]; try discriminate A3; try discriminate A4.
      apply xle_fin in A1, A2, A3, A4. unfold c, interval_loss in C. cbn [fst snd] in C. rewrite !CDF in C by lra. cbn in C.
      injection C as C. unfold interval_short, lo, hi. cbn [fst snd]. cbn.
      destruct (Rltb_spec (3 / 4) (1 / 4)); [lra|]. destruct (Rltb_spec y x); [lra|]. apply xle_fin. lra.
  - unfold between, below, lo, hi. cbn. rewrite !C1 by lra. lra.
Qed.

(* ------------------------------------------------------------ discrete distributions *)
Lemma arange_S a n : arange a (a + Z.of_nat (S n)) = arange a (a + Z.of_nat n) ++ [(a + Z.of_nat n)%Z].
Proof.
  unfold arange. replace (Z.to_nat (a + Z.of_nat (S n) - a)) with (S n) by lia. replace (Z.to_nat (a + Z.of_nat n - a)) with n by lia.
  rewrite seq_S, map_app. reflexivity.
Qed.
Lemma arange_app a b c : (a <= b <= c)%Z -> arange a c = arange a b ++ arange b c.
Proof.
  intros [H1 H2]. replace c with (b + Z.of_nat (Z.to_nat (c - b)))%Z by lia. generalize (Z.to_nat (c - b)) as n. clear c H2. intro n.
  replace b with (a + Z.of_nat (Z.to_nat (b - a)))%Z by lia. generalize (Z.to_nat (b - a)) as m. intro m. clear b H1.
  induction n as [|n IH].
  - replace (a + Z.of_nat m + Z.of_nat 0)%Z with (a + Z.of_nat m)%Z by lia.
    replace (arange (a + Z.of_nat m) (a + Z.of_nat m)) with (@nil Z); [now rewrite app_nil_r|].
    unfold arange. now rewrite Z.sub_diag.
  - rewrite (arange_S (a + Z.of_nat m) n). replace (a + Z.of_nat m + Z.of_nat (S n))%Z with (a + Z.of_nat (S (m + n)))%Z by lia.
    rewrite arange_S. replace (a + Z.of_nat (m + n))%Z with (a + Z.of_nat m + Z.of_nat n)%Z by lia. now rewrite IH, app_assoc.
Qed.
Lemma total_app s t : total (s ++ t) = total s + total t.
Proof. unfold total. rewrite map_app, fold_right_app. induction s as [|x s IH]; cbn; [lra|]. rewrite IH. lra. Qed.
Lemma inside_all a b t : (forall v, In v t -> (a <= fst v <= b)%Z) -> inside a b t = t.
Proof.
  induction t as [|x t IH]; intro H; [reflexivity|]. cbn. pose proof (H x (or_introl eq_refl)).
  replace (a <=? fst x)%Z with true by (symmetry; apply Z.leb_le; lia). replace (fst x <=? b)%Z with true by (symmetry; apply Z.leb_le; lia).
  cbn. f_equal. apply IH. intros v Hv. apply H. now right.
Qed.
Lemma inside_none a b t : (forall v, In v t -> (fst v < a \/ b < fst v)%Z) -> inside a b t = [].
Proof.
  induction t as [|x t IH]; intro H; [reflexivity|]. cbn. pose proof (H x (or_introl eq_refl)).
  replace ((a <=? fst x) && (fst x <=? b))%Z%bool with false.
  - apply IH. intros v Hv. apply H. now right.
  - symmetry. apply andb_false_iff. destruct H0; [left|right]; apply Z.leb_gt; lia.
Qed.
Lemma inside_app a b s t : inside a b (s ++ t) = inside a b s ++ inside a b t.
Proof. unfold inside. apply filter_app. Qed.

Section Discrete.
Variables (d : methods) (F : xr -> R).
Hypothesis L : lawful d F.
Hypothesis K : kind_of d = Discrete.
Lemma table_app xs ys : table d (xs ++ ys) = table d xs ++ table d ys.
Proof. unfold table. apply map_app. Qed.
Lemma in_table v l u : In v (table d (arange l u)) -> (l <= fst v < u)%Z /\ snd v = F (Fin (IZR (fst v))) - F (Fin (IZR (fst v) - 1)).
Proof using L K.
  unfold table. intro H. apply in_map_iff in H. destruct H as (z & <- & Hz). apply arange_in in Hz. cbn. split; [exact Hz|].
  now rewrite (proj2 (l_disc _ _ L K) z).
Qed.
Lemma total_table a n : total (table d (arange a (a + Z.of_nat n))) = F (Fin (IZR (a + Z.of_nat n) - 1)) - F (Fin (IZR a - 1)).
Proof using L K.
  induction n as [|n IH].
  - replace (a + Z.of_nat 0)%Z with a by lia. unfold arange. rewrite Z.sub_diag. cbn. lra.
  - rewrite arange_S, table_app, total_app, IH. unfold table. cbn [map]. rewrite (proj2 (l_disc _ _ L K)). unfold total. cbn [map snd fold_right real_part].
    replace (IZR (a + Z.of_nat (S n)) - 1) with (IZR (a + Z.of_nat n)) by (rewrite Nat2Z.inj_succ, <- Z.add_1_r, Z.add_assoc, (plus_IZR _ 1); lra). lra.
Qed.
Lemma total_arange a b : (a <= b + 1)%Z -> total (table d (arange a (b + 1))) = between Discrete F (Fin (IZR a)) (Fin (IZR b)).
Proof using L K.
  intro H. replace (b + 1)%Z with (a + Z.of_nat (Z.to_nat (b + 1 - a)))%Z at 1 by lia. rewrite total_table. unfold between, below.
  replace (a + Z.of_nat (Z.to_nat (b + 1 - a)))%Z with (b + 1)%Z by lia. rewrite plus_IZR. cbn.
  replace (IZR b + 1 - 1) with (IZR b) by ring. reflexivity.
Qed.
Lemma total_inside l u a b : (l <= a)%Z -> (a <= b + 1)%Z -> (b <= u)%Z ->
  total (inside a b (table d (arange l (u + 1)))) = between Discrete F (Fin (IZR a)) (Fin (IZR b)).
Proof using L K.
  intros H1 H2 H3. rewrite (arange_app l a) by lia. rewrite (arange_app a (b + 1) (u + 1)) by lia.
  rewrite !table_app, !inside_app.
  rewrite (inside_none a b (table d (arange l a))) by (intros v Hv; apply in_table in Hv; lia).
  rewrite (inside_none a b (table d (arange (b + 1) _))) by (intros v Hv; apply in_table in Hv; lia).
  rewrite inside_all by (intros v Hv; apply in_table in Hv; lia). rewrite app_nil_r. cbn [app]. apply total_arange, H2.
Qed.
Lemma table_nonneg l u : Forall (fun vp => 0 <= snd vp) (table d (arange l u)).
Proof using L K.
  apply Forall_forall. intros v Hv. apply in_table in Hv. destruct Hv as [_ ->].
  assert (F (Fin (IZR (fst v) - 1)) <= F (Fin (IZR (fst v)))) by (apply (l_mono _ _ L), xle_fin; lra). lra.
Qed.
Lemma table_contiguous l u : contiguous (table d (arange l u)).
Proof using L K.
  split.
  - unfold table. rewrite map_map. cbn. rewrite map_id. unfold arange. apply FinFun.Injective_map_NoDup; [|apply seq_NoDup].
    intros x y H. lia.
  - intros a c z Ha Hc Hz. apply in_table in Ha, Hc. eexists. unfold table. apply in_map_iff. exists z.
    split; [reflexivity|]. apply arange_in. lia.
Qed.

(** The ends of xvals("full"): whole numbers that leave out at most one in ten thousand on each side. *)
Lemma full_endpoints : supported d F -> proper_bound Discrete (fst (m_supp d)) -> proper_bound Discrete (snd (m_supp d)) ->
  fst (m_supp d) <> PInf -> snd (m_supp d) <> NInf ->
  exists l u, finite_endpoints d (Name "full") = Ok (Fin (IZR l), Fin (IZR u)) /\
    9998 / 10000 <= between Discrete F (Fin (IZR l)) (Fin (IZR u)) /\ (l <= u)%Z /\
    (whole (fst (m_supp d)) -> whole (snd (m_supp d)) -> between Discrete F (Fin (IZR l)) (Fin (IZR u)) = 1).
Proof using L K.
  intros (N1 & N2 & U & B) P1 P2 I1 I2. unfold finite_endpoints. cbn [String.eqb Ascii.eqb Bool.eqb orb negb].
  destruct (m_supp d) as [sl su] eqn:S. cbn [fst snd] in *.
  assert (exists l, (if negb (xisfinite sl) || false then m_ppf d (Fin (1 / 10000)) else sl)%bool = Fin (IZR l) /\
    F (Fin (IZR l - 1)) < 1 / 10000 /\ (whole sl -> F (Fin (IZR l - 1)) = 0)) as (l & El & Fl & Wl).
  { destruct P1 as [[z ->]|[->| ->]]; [|now destruct I1|].
    - exists z. cbn. split; [reflexivity|]. assert (F (Fin (IZR z - 1)) = 0) by (apply B, xlt_fin; lra). split; [lra|auto].
    - destruct (ppf_whole L (1 / 10000) K ltac:(lra)) as [z Ez]. exists z. cbn [xisfinite negb orb]. split; [exact Ez|]. split.
      + apply (ppf_below L); [lra|discriminate|]. rewrite Ez. apply xlt_fin. lra.
      + intros [y Hy]. discriminate Hy. }
  assert (exists u, (if negb (xisfinite su) || false then m_ppf d (Fin (9999 / 10000)) else su)%bool = Fin (IZR u) /\
    9999 / 10000 <= F (Fin (IZR u)) /\ (whole su -> F (Fin (IZR u)) = 1)) as (u & Eu & Fu & Wu).
  { destruct P2 as [[z ->]|[->| ->]]; [| |now destruct I2].
    - exists z. cbn. split; [reflexivity|]. split; [lra|auto].
    - destruct (ppf_whole L (9999 / 10000) K ltac:(lra)) as [z Ez]. exists z. cbn [xisfinite negb orb]. split; [exact Ez|]. split.
      + rewrite <- Ez. apply (ppf_reaches L). lra.
      + intros [y Hy]. discriminate Hy. }
  exists l, u. rewrite El, Eu. split; [reflexivity|]. unfold between, below. cbn [xsub xadd xneg]. change (IZR l + - (1)) with (IZR l - 1).
  assert (LU : (l <= u)%Z).
  { apply Z.nlt_ge. intro H. assert (F (Fin (IZR u)) <= F (Fin (IZR l - 1))); [|lra]. apply (l_mono _ _ L), xle_fin.
    apply IZR_lt in H. apply Znot_ge_lt || idtac. assert (IZR u + 1 <= IZR l) by (rewrite <- (plus_IZR u 1); apply IZR_le; apply lt_IZR in H; lia). lra. }
  split; [lra|]. split; [exact LU|]. intros W1 W2. rewrite (Wl W1), (Wu W2). ring.
Qed.
End Discrete.

(** For a discrete distribution with fewer than 199 values in xvals("full"), hdi is an interval of whole numbers with at least
    the requested mass. If the probabilities have a single peak no interval within those values is shorter. The mass can be
    anything up to 0.9998, and up to 1 if the support is finite. *)
Theorem C60_discrete_covers : forall d F minimize descending mass, lawful d F -> kind_of d = Discrete -> supported d F ->
  proper_bound Discrete (fst (m_supp d)) -> proper_bound Discrete (snd (m_supp d)) -> fst (m_supp d) <> PInf -> snd (m_supp d) <> NInf ->
  (forall t, Permutation t (descending t) /\ by_density (descending t)) ->
  exists l u, finite_endpoints d (Name "full") = Ok (Fin (IZR l), Fin (IZR u)) /\
  ((u - l <= 197)%Z -> 0 < mass -> mass <= 9998 / 10000 \/ (mass <= 1 /\ whole (fst (m_supp d)) /\ whole (snd (m_supp d))) ->
   exists a b, hdi minimize descending true true true false d mass (Some mass) None = Ok (Fin (IZR a), Fin (IZR b)) /\
     (l <= a <= b)%Z /\ (b <= u)%Z /\ mass <= between Discrete F (Fin (IZR a)) (Fin (IZR b)) /\
     ((forall x y z, (l <= x < y)%Z -> (y < z <= u)%Z ->
         Rmin (between Discrete F (Fin (IZR x)) (Fin (IZR x))) (between Discrete F (Fin (IZR z)) (Fin (IZR z))) <
         between Discrete F (Fin (IZR y)) (Fin (IZR y))) ->
      forall a' b', (l <= a')%Z -> (a' <= b' + 1)%Z -> (b' <= u)%Z -> mass <= between Discrete F (Fin (IZR a')) (Fin (IZR b')) -> (b - a <= b' - a')%Z)).
Proof.
  intros d F minimize descending mass L K SU P1 P2 I1 I2 DS.
  destruct (full_endpoints d F L K SU P1 P2 I1 I2) as (l & u & E & M & LU & W). exists l, u. split; [exact E|]. intros SM Hm MM.
  set (t := table d (arange l (u + 1))). destruct (DS t) as [Pm Sd].
  assert (T : mass <= total t).
  { unfold t. rewrite (total_arange d F L K) by lia. destruct MM as [|(H1 & W1 & W2)]; [lra|]. rewrite (W W1 W2). exact H1. }
  assert (H0 : exists a b, discrete_hdi mass (descending t) = Ok (a, b) /\ (l <= a <= b)%Z /\ (b <= u)%Z /\ mass <= total (inside a b t)).
  { destruct (C22_covers_with_fewest_points mass t (descending t) Pm Sd (table_nonneg d F L K _ _) (conj Hm T))
      as (a & b & pre & Eh & Ia & Ib & AB & MS & _).
    exists a, b. split; [exact Eh|].
    assert (forall z, In z (map fst t) -> (l <= z <= u)%Z).
    { intros z Hz. apply in_map_iff in Hz. destruct Hz as (v & <- & Hv). apply (in_table d F L K) in Hv. lia. }
    apply H in Ia. apply H in Ib. repeat split; try lia. exact MS. }
  destruct H0 as (a & b & Eh & AB & BU & MS). exists a, b. split; [|split; [exact AB|split; [exact BU|split]]].
  - unfold hdi. cbn [negb]. unfold find_hdi. rewrite K, E. cbn [bind]. unfold discrete_xvals. rewrite !int_of_IZR.
    replace (u - l <=? Z.of_nat 200)%Z with true by (symmetry; apply Z.leb_le; lia).
    replace (Nat.ltb (List.length (arange l (u + 1))) 199) with true
      by (symmetry; apply Nat.ltb_lt; unfold arange; rewrite map_length, seq_length; lia).
    fold t. rewrite Eh. cbn [bind fst snd]. now rewrite !py_int_whole.
  - rewrite <- (total_inside d F L K l u a b) by lia. exact MS.
  - intros UM a' b' A1 A2 A3 MA.
    destruct (C22_unimodal_shortest mass t (descending t) Pm Sd (table_nonneg d F L K _ _) (table_contiguous d F L K _ _)) as (a0 & b0 & E0 & _ & Best).
    + intros x y z Hx Hy Hz XYZ. apply (in_table d F L K) in Hx, Hy, Hz. destruct Hx as [Rx ->], Hy as [Ry ->], Hz as [Rz ->].
      apply (UM (fst x) (fst y) (fst z)); lia.
    + split; [exact Hm|exact T].
    + rewrite Eh in E0. injection E0 as <- <-. apply Best. unfold t. now rewrite (total_inside d F L K l u a' b') by lia.
Qed.

(** With 199 values or more the interval of the continuous problem is cut to whole numbers towards zero. This never loses mass:
    if the interval found by the minimiser has the requested mass, so has the result. *)
Theorem C60_discrete_many : forall d F minimize descending mass l u a b, lawful d F -> kind_of d = Discrete ->
  finite_endpoints d (Name "full") = Ok (Fin (IZR l), Fin (IZR u)) -> (198 <= u - l)%Z -> 0 < mass < 1 ->
  (forall x0, minimize interval_short (interval_loss d (Fin 0) mass) x0 (m_supp d) = (Fin a, Fin b)) -> mass <= F (Fin b) - F (Fin a) ->
  exists x y, hdi minimize descending true true true false d mass (Some mass) None = Ok (Fin (IZR x), Fin (IZR y)) /\
    mass <= between Discrete F (Fin (IZR x)) (Fin (IZR y)) /\ Rabs (IZR x - a) < 1 /\ Rabs (IZR y - b) < 1.
Proof.
  intros d F minimize descending mass l u a b L K E SM Hm MI MA.
  exists (int_of a), (int_of b).
  assert (IP : forall r, py_int (Fin r) = Ok (Fin (IZR (int_of r)))).
  { intro r. unfold py_int, np_int64, truncate, int_of. destruct (Rltb r 0); [now rewrite opp_IZR|reflexivity]. }
  assert (IR : forall r, IZR (int_of r) - 1 < r /\ r < IZR (int_of r) + 1 /\ (r < 0 -> r <= IZR (int_of r)) /\ (0 <= r -> IZR (int_of r) = Rfloor r)).
  { intro r. unfold int_of. destruct (Rltb_spec r 0).
    - rewrite opp_IZR. pose proof (Rfloor_spec (- r)) as H. unfold Rfloor in H. lra.
    - pose proof (Rfloor_spec r) as H. unfold Rfloor in *. lra. }
  split; [|split; [|split]].
  - unfold hdi. cbn [negb]. unfold find_hdi. rewrite K, E. cbn [bind].
    replace (Nat.ltb (List.length (discrete_xvals (IZR l) (IZR u) 200)) 199) with false.
    + unfold continuous_hdi. destruct (m_supp d) as [sl su].
      unfold eti. cbn [negb]. replace (xdiv (xsub (Fin 1) (Fin mass)) (Fin 2)) with (Fin ((1 - mass) / 2)) by (cbn; rewrite Reqb_false by lra; f_equal; field).
      replace (xsub (Fin 1) (Fin ((1 - mass) / 2))) with (Fin (1 - (1 - mass) / 2)) by (cbn; f_equal; ring).
      rewrite K. destruct (ppf_whole L ((1 - mass) / 2) K ltac:(lra)) as [z1 E1]. destruct (ppf_whole L (1 - (1 - mass) / 2) K ltac:(lra)) as [z2 E2].
      rewrite E1, E2, !py_int_whole. cbn [bind]. rewrite MI. cbn [fst snd]. now rewrite !IP.
    + symmetry. apply Nat.ltb_ge. unfold discrete_xvals. rewrite !int_of_IZR. destruct (u - l <=? Z.of_nat 200)%Z eqn:Q.
      * unfold arange. rewrite map_length, seq_length. lia.
      * rewrite map_length. unfold linspace. rewrite map_length, seq_length. lia.
  - unfold between, below. cbn [xsub xadd xneg].
    assert (F (Fin (IZR (int_of a) + - (1))) <= F (Fin a)) by (apply (l_mono _ _ L), xle_fin; pose proof (IR a); lra).
    assert (F (Fin b) <= F (Fin (IZR (int_of b)))); [|lra].
    destruct (Rlt_or_le b 0) as [H1|H1].
    + apply (l_mono _ _ L), xle_fin. now apply IR.
    + rewrite (proj2 (proj2 (proj2 (IR b))) H1). rewrite (proj1 (l_disc _ _ L K) b). lra.
  - pose proof (IR a). unfold Rabs. destruct (Rcase_abs _); lra.
  - pose proof (IR b). unfold Rabs. destruct (Rcase_abs _); lra.
Qed.

(** The equality constraint of that problem need not have a solution: the chance that a 300-sided die falls into an interval is
    a multiple of 1/300. *)
Theorem C60_no_solution_refuted : exists d F mass, lawful d F /\ kind_of d = Discrete /\ 0 < mass < 1 /\
  forall p, ~ allowed (interval_loss d (Fin 0) mass) (m_supp d) p.
Proof.
  exists (die 300), (die_F 300), (501 / 1000). split; [apply die_lawful; lia|]. split; [reflexivity|]. split; [lra|].
  intros [x y] (C & A1 & A2 & A3 & A4). cbn [fst snd] in *. cbn [die m_supp fst snd] in *.
  destruct x as [x| | |]; try discriminate A1; try discriminate A2. destruct y as [y| | |]; try discriminate A3; try discriminate A4.
  apply xle_fin in A1, A2, A3, A4. unfold interval_loss in C. cbn [fst snd die m_cdf die_F xsub xadd xneg] in C. injection C as C.
  assert (G : forall r, 1 <= r <= 300 -> clip01 (Rfloor r / 300) = IZR (Int_part r) / 300).
  { intros r Hr. pose proof (Rfloor_le 1 r ltac:(lra)) as H1. pose proof (Rfloor_le r 300 ltac:(lra)) as H2.
    rewrite (Rfloor_IZR 1) in H1. rewrite (Rfloor_IZR 300) in H2.
    assert (0 <= Rfloor r / 300 <= 1) by lra. pose proof (clip01_cases (Rfloor r / 300)). unfold Rfloor in *. lra. }
  rewrite !G in C by lra. assert (Q : 10 * IZR (Int_part y) - 10 * IZR (Int_part x) = 1503) by lra.
  rewrite <- !mult_IZR, <- minus_IZR in Q. apply eq_IZR in Q. lia.
Qed.

(** A sort by descending probability, for the examples. *)
Fixpoint put (v : Z * R) (t : list (Z * R)) : list (Z * R) :=
  match t with [] => [v] | x :: r => if Rleb (snd x) (snd v) then v :: t else x :: put v r end.
Definition down (t : list (Z * R)) : list (Z * R) := fold_right put [] t.
Lemma put_perm v t : Permutation (v :: t) (put v t).
Proof.
  induction t as [|x t IH]; cbn; [apply Permutation_refl|]. destruct (Rleb _ _); [apply Permutation_refl|].
  eapply perm_trans; [apply perm_swap|]. now apply perm_skip.
Qed.
Lemma put_sorted v t : by_density t -> by_density (put v t).
Proof.
  unfold by_density. induction t as [|x t IH]; cbn; intro H; [repeat constructor|]. destruct (Rleb_spec (snd x) (snd v)) as [X|X].
  - constructor; [exact H|]. constructor; [exact X|]. apply Sorted.StronglySorted_inv in H. destruct H as [_ H].
    eapply Forall_impl; [|exact H]. cbn. intros; lra.
  - apply Sorted.StronglySorted_inv in H. destruct H as [H1 H2]. constructor; [apply IH, H1|].
    apply Forall_forall. intros y Hy. apply (Permutation_in y (Permutation_sym (put_perm v t))) in Hy. destruct Hy as [<-|Hy]; [lra|].
    rewrite Forall_forall in H2. now apply H2.
Qed.
Lemma down_sorts : forall t, Permutation t (down t) /\ by_density (down t).
Proof.
  induction t as [|x t [P S]]; cbn; [split; [constructor|constructor]|]. split; [|now apply put_sorted].
  eapply perm_trans; [apply perm_skip, P|apply put_perm].
Qed.
Lemma die_supported n : (0 < n)%Z -> supported (die n) (die_F n).
Proof.
  intro Hn. assert (0 < IZR n) by (now apply IZR_lt). unfold supported. cbn [die m_supp fst snd]. split; [discriminate|]. split; [discriminate|]. split.
  - cbn. rewrite Rfloor_IZR. replace (IZR n / IZR n) with 1 by (field; lra). pose proof (clip01_cases 1). lra.
  - intros x Hx. destruct x as [x| | |]; try discriminate Hx; [|reflexivity]. apply xlt_fin in Hx. cbn.
    pose proof (Rfloor_spec x). assert (Rfloor x <= 0).
    { unfold Rfloor in *. apply IZR_le. assert (Int_part x < 1)%Z by (apply lt_IZR; lra). lia. }
    assert (Rfloor x / IZR n <= 0) by (unfold Rdiv; rewrite <- (Rmult_0_l (/ IZR n)); apply Rmult_le_compat_r; [left; now apply Rinv_0_lt_compat|lra]).
    pose proof (clip01_cases (Rfloor x / IZR n)). lra.
Qed.
(** A die with six faces: every interval of five faces has the mass 5/6. *)
Example C60_discrete_covers_example : forall minimize, exists a b,
  hdi minimize down true true true false (die 6) (94 / 100) (Some (8 / 10)) None = Ok (Fin (IZR a), Fin (IZR b)) /\
  8 / 10 <= between Discrete (die_F 6) (Fin (IZR a)) (Fin (IZR b)).
Proof.
  intro minimize.
  destruct (C60_discrete_covers (die 6) (die_F 6) minimize down (8 / 10) (die_lawful 6 ltac:(lia)) eq_refl (die_supported 6 ltac:(lia))
    (or_introl (ex_intro _ 1%Z eq_refl)) (or_introl (ex_intro _ 6%Z eq_refl)) ltac:(discriminate) ltac:(discriminate) down_sorts) as (l & u & E & H).
  assert (l = 1%Z /\ u = 6%Z) as [-> ->].
  { cbn in E. injection E as E1 E2. split; [symmetry; now apply eq_IZR|symmetry; now apply eq_IZR]. }
  destruct (H ltac:(lia) ltac:(lra) ltac:(left; lra)) as (a & b & E0 & _ & _ & M & _). exists a, b. split; [exact E0|exact M].
Qed.
(** A die with 300 faces and the interval from 10.5 to 290.5. *)
Example C60_discrete_many_example : finite_endpoints (die 300) (Name "full") = Ok (Fin (IZR 1), Fin (IZR 300)) /\
  9 / 10 <= die_F 300 (Fin (581 / 2)) - die_F 300 (Fin (21 / 2)).
Proof.
  split; [reflexivity|]. cbn. rewrite (Rfloor_unique (581 / 2) 290), (Rfloor_unique (21 / 2) 10) by (simpl; lra).
  pose proof (clip01_cases (290 / 300)). pose proof (clip01_cases (10 / 300)). lra.
Qed.

(* ------------------------------------------------------------ requests that are rejected, defaults *)
(** A class without intervals, missing parameters or parameters that are not scalars are rejected; without a mass the default is
    used; the result of a continuous distribution is formatted, that of a discrete one is not. *)
Theorem C60_hdi_requests : forall minimize descending name_ok frozen scalar censored d default mass fmt,
  (name_ok = false \/ frozen = false \/ scalar = false ->
   hdi minimize descending name_ok frozen scalar censored d default mass fmt = Err ValueError) /\
  (mass = None -> hdi minimize descending name_ok frozen scalar censored d default mass fmt =
                  hdi minimize descending name_ok frozen scalar censored d default (Some default) fmt) /\
  (forall f lo hi, fmt = Some f -> hdi minimize descending name_ok frozen scalar censored d default mass None = Ok (lo, hi) ->
   hdi minimize descending name_ok frozen scalar censored d default mass fmt =
     Ok (match kind_of d with Continuous => (f lo, f hi) | Discrete => (lo, hi) end)).
Proof.
  intros minimize descending name_ok frozen scalar censored d default mass fmt. split; [|split].
  - unfold hdi. destruct name_ok; [|reflexivity]. destruct frozen; [|now destruct mass]. destruct scalar; [|now destruct mass].
    intros [H|[H|H]]; discriminate H.
  - intros ->. reflexivity.
  - intros f lo hi -> H. unfold hdi in *. destruct name_ok; [|discriminate H]. destruct frozen; [|discriminate H]. destruct scalar; [|discriminate H].
    cbn [negb] in *. destruct (find_hdi _ _ _ _ _) as [[x y]|]; cbn [bind fst snd] in *; [|discriminate H].
    destruct (kind_of d); injection H as -> ->; reflexivity.
Qed.

(* ------------------------------------------------------------ summary *)
(** summary reports the formatted mean, median and standard deviation together with the interval that the requested method
    returns for the same arguments. Formatting twice is the same as formatting once. *)
Theorem C60_summary : forall minimize descending censored d mean median std default_kind default mass iv fmt,
  (forall x, fmt (fmt x) = fmt x) ->
  let kind := match iv with Some i => i | None => Word default_kind end in
  let result := summary minimize descending true true true censored d mean median std default_kind default mass iv fmt in
  let report lo hi := Ok {| s_mean := fmt mean; s_median := fmt median; s_std := fmt std; s_lower := lo; s_upper := hi |} in
  (kind = Word "hdi" -> forall lo hi, hdi minimize descending true true true censored d default mass (Some fmt) = Ok (lo, hi) -> result = report lo hi) /\
  (kind = Word "eti" -> forall lo hi, eti true true true d (Fin default) (option_map Fin mass) (Some fmt) = Ok (lo, hi) -> result = report lo hi) /\
  (forall a b, kind = Quantiles a b -> result = match kind_of d with
      Continuous => report (fmt (m_ppf d a)) (fmt (m_ppf d b)) | Discrete => report (m_ppf d a) (m_ppf d b) end).
Proof.
  intros minimize descending censored d mean median std default_kind default mass iv fmt ID kind result report.
  assert (FH : forall lo hi, hdi minimize descending true true true censored d default mass (Some fmt) = Ok (lo, hi) -> kind_of d = Continuous ->
    fmt lo = lo /\ fmt hi = hi).
  { intros lo hi H K. unfold hdi in H. cbn [negb] in H. destruct (find_hdi _ _ _ _ _); cbn [bind] in H; [|discriminate H].
    rewrite K in H. injection H as <- <-. now rewrite !ID. }
  assert (FE : forall lo hi, eti true true true d (Fin default) (option_map Fin mass) (Some fmt) = Ok (lo, hi) -> kind_of d = Continuous ->
    fmt lo = lo /\ fmt hi = hi).
  { intros lo hi H K. unfold eti in H. cbn [negb] in H. rewrite K in H. injection H as <- <-. now rewrite !ID. }
  split; [|split].
  - intros E lo hi H. unfold result, summary. cbn [negb]. fold kind. rewrite E. cbn [String.eqb Ascii.eqb Bool.eqb]. rewrite H. cbn [bind fst snd].
    destruct (kind_of d) eqn:K; [reflexivity|]. destruct (FH lo hi H eq_refl) as [-> ->]. reflexivity.
  - intros E lo hi H. unfold result, summary. cbn [negb]. fold kind. rewrite E. cbn [String.eqb Ascii.eqb Bool.eqb]. rewrite H. cbn [bind fst snd].
    destruct (kind_of d) eqn:K; [reflexivity|]. destruct (FE lo hi H eq_refl) as [-> ->]. reflexivity.
  - intros a b E. unfold result, summary. cbn [negb]. fold kind. rewrite E. cbn [bind fst snd]. now destruct (kind_of d).
Qed.
(** Rounding to two decimals is such a format. *)
Definition two_decimals (x : xr) : xr := match x with Fin r => Fin (Rfloor (100 * r + 1 / 2) / 100) | _ => x end.
Example C60_format_example : forall x, two_decimals (two_decimals x) = two_decimals x.
Proof.
  intros [r| | |]; try reflexivity. cbn. do 2 f_equal. unfold Rfloor. apply Rfloor_unique. lra.
Qed.
Example C60_summary_example : forall minimize descending,
  summary minimize descending true true true false unif (Fin (1 / 2)) (Fin (1 / 2)) (Fin (2887 / 10000)) "eti" (94 / 100) (Some (1 / 2)) None two_decimals =
  Ok {| s_mean := Fin (50 / 100); s_median := Fin (50 / 100); s_std := Fin (29 / 100); s_lower := Fin (25 / 100); s_upper := Fin (75 / 100) |}.
Proof.
  intros minimize descending.
  assert (T : forall r z, IZR z <= 100 * r + 1 / 2 < IZR z + 1 -> two_decimals (Fin r) = Fin (IZR z / 100))
    by (intros r z H; cbn; now rewrite (Rfloor_unique _ z H)).
  destruct (C60_summary minimize descending false unif (Fin (1 / 2)) (Fin (1 / 2)) (Fin (2887 / 10000)) "eti" (94 / 100) (Some (1 / 2)) None two_decimals C60_format_example)
    as (_ & H & _).
  rewrite (H eq_refl (Fin (25 / 100)) (Fin (75 / 100))).
  - rewrite !(T (1 / 2) 50%Z), (T (2887 / 10000) 29%Z) by lra. reflexivity.
  - unfold eti. cbn [negb option_map]. replace (xdiv (xsub (Fin 1) (Fin (1 / 2))) (Fin 2)) with (Fin (1 / 4)) by (cbn; rewrite Reqb_false by lra; f_equal; field).
    replace (xsub (Fin 1) (Fin (1 / 4))) with (Fin (3 / 4)) by (cbn; f_equal; lra).
    change (kind_of unif) with Continuous. cbn [unif m_ppf]. rewrite !Rleb_true by lra. cbn [andb].
    rewrite (T (1 / 4) 25%Z), (T (3 / 4) 75%Z) by lra. reflexivity.
Qed.
(** A word that is neither "hdi" nor "eti" is not rejected with a message: the function fails because no interval was
    computed. *)
Theorem C60_unknown_interval_refuted : forall minimize descending censored d mean median std default_kind default mass word fmt,
  word <> "hdi"%string -> word <> "eti"%string ->
  summary minimize descending true true true censored d mean median std default_kind default mass (Some (Word word)) fmt = Err RuntimeError.
Proof.
  intros minimize descending censored d mean median std default_kind default mass word fmt H1 H2. unfold summary. cbn [negb].
  apply String.eqb_neq in H1, H2. rewrite H1, H2. reflexivity.
Qed.

Print Assumptions C60_no_wider_than_eti.
Print Assumptions C60_shortest.
Print Assumptions C60_highest_density.
Print Assumptions C60_censored_refuted.
Print Assumptions C60_discrete_covers.
Print Assumptions C60_discrete_many.
Print Assumptions C60_no_solution_refuted.
Print Assumptions C60_hdi_requests.
Print Assumptions C60_summary.
Print Assumptions C60_unknown_interval_refuted.
