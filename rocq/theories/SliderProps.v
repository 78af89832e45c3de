(** C66. *)
From Coq Require Import Reals List String Bool Lia Lra ZArith Psatz.
From Verif Require Import Base XR FamModel BoundModel CatModel LawModel LawProofs DrawModel SliderModel.
Import ListNotations.
Local Open Scope R_scope.
Local Open Scope string_scope.
Local Open Scope list_scope.

(** Rounding to [d] decimal places moves a number by at most half a unit of that place. *)
Definition rounds (rnd : R -> Z -> R) : Prop := forall x d, Rabs (rnd x d - x) <= powerRZ 10 (- d) / 2.

(** A value within the limits of a parameter, and a slider that offers nothing else and the value itself. *)
Definition allowed (x : R) (b : bound) : Prop := inside (Fin x) b = true.

Lemma abs_le_inv : forall a b, Rabs a <= b -> - b <= a <= b.
Proof. intros a b H. pose proof (Rle_abs a). pose proof (Rle_abs (- a)). rewrite Rabs_Ropp in *. lra. Qed.
Lemma fle a b : xleb (Fin a) (Fin b) = true <-> a <= b.
Proof.
  unfold xleb. cbn. rewrite orb_true_iff. unfold Rltb, Reqb.
  destruct (Rlt_dec a b), (Req_EM_T a b); split; intros H; try lra; try (left; reflexivity); try (right; reflexivity); destruct H; discriminate.
Qed.
Lemma ln10_pos : 0 < ln 10.
Proof. rewrite <- ln_1. apply ln_increasing; lra. Qed.

Lemma power_spec : forall v, v <> 0 -> powerRZ 10 (power v) <= Rabs v < 10 * powerRZ 10 (power v).
Proof.
  intros v Hv. pose proof ln10_pos as L. assert (A : 0 < Rabs v) by (apply Rabs_pos_lt; exact Hv).
  destruct (base_Int_part (ln (Rabs v) / ln 10)) as [B1 B2]. fold (power v) in B1, B2.
  rewrite powerRZ_Rpower by lra. unfold Rpower.
  assert (E : ln (Rabs v) = ln (Rabs v) / ln 10 * ln 10) by (field; lra).
  set (w := ln (Rabs v) / ln 10) in *. set (k := IZR (power v)) in *. set (t := ln 10) in *.
  assert (K1 : k * t <= w * t) by (apply Rmult_le_compat_r; lra).
  assert (K2 : w * t < (k + 1) * t) by (apply Rmult_lt_compat_r; lra).
  rewrite <- (exp_ln (Rabs v)) by exact A. rewrite E. split.
  - destruct K1 as [K1|K1]; [left; apply exp_increasing; exact K1 | rewrite K1; lra].
  - replace 10 with (exp t) by (unfold t; apply exp_ln; lra). rewrite <- exp_plus. apply exp_increasing. lra.
Qed.

Section Round.
Variable rnd : R -> Z -> R.
Hypothesis Hr : rounds rnd.

Lemma range_raw : forall v, v <> 0 ->
  let m := powerRZ 10 (power v) in
  let std := m * 10 - m / 10 in
  let mn := rnd (v - std) (- power v)%Z in
  let mx := rnd (v + std) (- power v)%Z in
  0 < m /\ m <= Rabs v < 10 * m /\ v - 104 / 10 * m <= mn <= v - 94 / 10 * m /\ v + 94 / 10 * m <= mx <= v + 104 / 10 * m.
Proof using Hr.
  intros v Hv m std mn mx.
  pose proof (power_spec v Hv) as P. fold m in P.
  assert (M : 0 < m) by (apply powerRZ_lt; lra).
  pose proof (Hr (v - std) (- power v)%Z) as A. pose proof (Hr (v + std) (- power v)%Z) as B.
  rewrite Z.opp_involutive in A, B. fold m in A, B. fold mn in A. fold mx in B.
  apply abs_le_inv in A. apply abs_le_inv in B. unfold std in *. lra.
Qed.

(** Around a value that is not zero and lies within the limits of its parameter: the range contains the value and keeps to the
    limits; on a side without limit it goes as far as about the size of the value and not much more than ten times that; and
    the step is between a hundredth and a tenth of the value. *)
Theorem C66_range : forall v l u, v <> 0 -> allowed v (l, Some u) ->
  exists mn mx step, generate_range rnd (Fin v) l (Some u) = Ok (mn, mx, step) /\
    mn <= v <= mx /\ xleb l (Fin mn) = true /\ xleb (Fin mx) u = true /\
    Rabs v / 100 < step <= Rabs v / 10 /\
    (l = NInf -> 94 / 100 * Rabs v <= v - mn <= 104 / 10 * Rabs v) /\
    (u = PInf -> 94 / 100 * Rabs v <= mx - v <= 104 / 10 * Rabs v).
Proof using Hr.
  intros v l u Hv Hin. unfold allowed, inside in Hin. cbn [fst snd] in Hin. apply andb_true_iff in Hin. destruct Hin as [Hl Hu].
  pose proof (range_raw v Hv) as R. cbn zeta in R.
  unfold generate_range. assert (Z : Reqb v 0 = false) by (apply Reqb_false; exact Hv). rewrite Z.
  set (m := powerRZ 10 (power v)) in *. set (mn := rnd (v - _) _) in *. set (mx := rnd (v + _) _) in *.
  destruct R as [M [[P1 P2] [[A1 A2] [B1 B2]]]].
  destruct l as [l| | |]; try discriminate Hl; destruct u as [u| | |]; try discriminate Hu;
    try (apply fle in Hl); try (apply fle in Hu);
    eexists; eexists; eexists; (split; [reflexivity|]); (split; [lra|]);
    (split; [try reflexivity; apply fle; lra|]); (split; [try reflexivity; apply fle; lra|]);
    (split; [lra|]); split; intros; try discriminate; lra.
Qed.

(** The slider of a float offers the value and only values within the limits of the parameter. *)
Theorem C66_float_slider : forall v l u, v <> 0 -> allowed v (l, Some u) ->
  exists s, get_slider rnd (Floating (Fin v)) l (Some u) = Ok s /\ s_value s = Floating (Fin v) /\ position s v /\ 0 < s_step s /\
    forall x, position s x -> allowed x (l, Some u).
Proof using Hr.
  intros v l u Hv Hin. destruct (C66_range v l u Hv Hin) as [mn [mx [st [E [H1 [H2 [H3 [H4 _]]]]]]]].
  unfold get_slider. cbn [value_of]. rewrite E. cbn [bind]. eexists. split; [reflexivity|]. cbn. split; [reflexivity|]. split; [exact H1|].
  split; [pose proof (Rabs_pos v); lra|].
  unfold position. cbn. intros x [X1 X2]. unfold allowed, inside. cbn [fst snd].
  apply andb_true_iff.
  destruct l as [l| | |]; try discriminate H2; destruct u as [u| | |]; try discriminate H3;
    try (apply fle in H2); try (apply fle in H3); split; try reflexivity; apply fle; lra.
Qed.

Lemma trunc_le : forall x z, x <= IZR z -> (trunc x <= z)%Z.
Proof.
  intros x z H. unfold trunc. destruct (Rleb 0 x) eqn:E.
  - apply le_IZR. destruct (base_Int_part x). lra.
  - destruct (base_Int_part (- x)) as [A B]. apply Z.lt_succ_r. apply lt_IZR. rewrite succ_IZR, opp_IZR. lra.
Qed.
Lemma trunc_ge : forall x z, IZR z <= x -> (z <= trunc x)%Z.
Proof.
  intros x z H. unfold trunc. destruct (Rleb 0 x) eqn:E.
  - destruct (base_Int_part x) as [A B]. apply Z.lt_succ_r. apply lt_IZR. rewrite succ_IZR. lra.
  - apply le_IZR. rewrite opp_IZR. destruct (base_Int_part (- x)). lra.
Qed.

(** The slider of an integer offers the value, and on a side where the limit is an integer or there is none it offers nothing
    beyond it. *)
Theorem C66_integer_slider : forall z l u, z <> 0%Z -> allowed (IZR z) (l, Some u) ->
  exists s, get_slider rnd (Whole z) l (Some u) = Ok s /\ s_value s = Whole z /\ position s (IZR z) /\ s_step s = 1 /\
    forall x, position s x ->
      ((l = NInf \/ exists k, l = Fin (IZR k)) -> xleb l (Fin x) = true) /\
      ((u = PInf \/ exists k, u = Fin (IZR k)) -> xleb (Fin x) u = true).
Proof using Hr.
  intros z l u Hz Hin. assert (Hv : IZR z <> 0) by (intros E; apply eq_IZR in E; auto).
  destruct (C66_range _ l u Hv Hin) as [mn [mx [st [E [H1 [H2 [H3 _]]]]]]].
  assert (TI : forall k, trunc (IZR k) = k) by (intros k; apply Z.le_antisymm; [apply trunc_le; lra | apply trunc_ge; lra]).
  unfold get_slider. cbn [value_of]. rewrite E. cbn [bind]. eexists. split; [reflexivity|]. cbn. split; [reflexivity|].
  split. { unfold position. cbn. split; apply IZR_le; [apply trunc_le | apply trunc_ge]; lra. }
  split; [reflexivity|]. unfold position. cbn. intros x [X1 X2].
  assert (Z : Reqb (IZR z) 0 = false) by (apply Reqb_false; exact Hv).
  unfold generate_range in E. rewrite Z in E. split; intros [->|[k ->]]; try reflexivity.
  - injection E as Emn _ _. rewrite <- Emn in X1. rewrite TI in X1. apply fle. exact X1.
  - injection E as _ Emx _. rewrite <- Emx in X2. rewrite TI in X2. apply fle. exact X2.
Qed.

(** All the parameters of a distribution: as many sliders as parameters, named after them, each offering its value, and those
    of floats nothing outside the limits. *)
Theorem C66_sliders : forall names params supports, List.length names = List.length params ->
  Forall2 (fun v b => exists x u, value_of v = Fin x /\ x <> 0 /\ snd b = Some u /\ allowed x b) params supports ->
  exists ss, sliders rnd names params supports = Ok ss /\ map fst ss = names /\ map (fun s => s_value (snd s)) ss = params /\
    Forall2 (fun s b => (exists x, value_of (s_value (snd s)) = Fin x /\ position (snd s) x) /\
                        ((exists x, s_value (snd s) = Floating x) -> forall x, position (snd s) x -> allowed x b)) ss supports.
Proof using Hr.
  intros names params supports L H. revert names L. induction H as [|v [l u0] ps bs Hv _ IH]; intros names L.
  - destruct names; [|discriminate]. exists []. repeat split. constructor.
  - destruct names as [|n names]; [discriminate|]. destruct Hv as [x [u [E1 [N [E2 A]]]]]. cbn [snd] in E2. subst u0.
    destruct (IH names) as [ss [S1 [S2 [S3 S4]]]]; [cbn in L; lia|].
    destruct v as [z|y]; cbn [value_of] in E1; [injection E1 as E1; subst x|subst y].
    + assert (Hz : z <> 0%Z) by (intros ->; auto).
      destruct (C66_integer_slider z l u Hz A) as [s [G [V [P _]]]].
      exists ((n, s) :: ss). cbn [sliders]. rewrite G. cbn [bind]. rewrite S1. cbn [bind map fst snd]. rewrite S2, S3, V.
      repeat split. constructor; [|exact S4]. cbn [snd]. split; [exists (IZR z); rewrite V; split; [reflexivity|exact P] |].
      rewrite V. intros [y D]. discriminate.
    + destruct (C66_float_slider x l u N A) as [s [G [V [P [_ O]]]]].
      exists ((n, s) :: ss). cbn [sliders]. rewrite G. cbn [bind]. rewrite S1. cbn [bind map fst snd]. rewrite S2, S3, V.
      repeat split. constructor; [|exact S4]. cbn [snd]. split; [exists x; rewrite V; split; [reflexivity|exact P] | intros _; exact O].
Qed.

(** The sliders of a distribution with finite parameters can always be made. *)
Theorem C66_finite_opens : forall names params supports, List.length names = List.length params ->
  Forall2 (fun v b => (exists x, value_of v = Fin x) /\ exists u, snd b = Some u) params supports ->
  exists ss, sliders rnd names params supports = Ok ss /\ map fst ss = names.
Proof using.
  intros names params supports L H. revert names L. induction H as [|v [l u0] ps bs [[x Hv] [u Hb]] _ IH]; intros names L.
  - destruct names; [|discriminate]. exists []. repeat split.
  - destruct names as [|n names]; [discriminate|]. cbn [snd] in Hb. subst u0.
    destruct (IH names) as [ss [S1 S2]]; [cbn in L; lia|].
    cbn [sliders]. unfold get_slider, generate_range. rewrite Hv. destruct (Reqb x 0); cbn [bind]; rewrite S1; cbn [bind];
      eexists; (split; [reflexivity|cbn [map fst]; rewrite S2; reflexivity]).
Qed.

(** A parameter that is 0 gets a slider from -10 to 10 whatever its limits: VonMises(mu=0, kappa=1) offers means outside
    the circle, and a probability 0 of a Categorical any number up to 10. *)
Theorem C66_zero_refuted : forall l u,
  get_slider rnd (Floating (Fin 0)) l (Some u) = Ok {| s_min := -10; s_max := 10; s_step := 1 / 10; s_value := Floating (Fin 0) |} /\
  exists s, sliders rnd ["mu"; "kappa"] [Floating (Fin 0); Floating (Fin 1)] (params_support VonMises ["mu"; "kappa"] None) = Ok s /\
    exists s0, nth_error s 0 = Some ("mu", s0) /\ position s0 5 /\ ~ allowed 5 (nth 0 (params_support VonMises ["mu"; "kappa"] None) real_line).
Proof using.
  intros l u. split; [unfold get_slider; cbn [value_of generate_range]; rewrite Reqb_refl; reflexivity|].
  cbn [params_support sliders positive]. unfold get_slider at 1. cbn [value_of generate_range]. rewrite Reqb_refl. cbn [bind].
  unfold get_slider, generate_range. cbn [value_of]. assert (Z : Reqb 1 0 = false) by (apply Reqb_false; lra). rewrite Z. cbn [bind].
  eexists. split; [reflexivity|]. eexists. split; [reflexivity|]. split; [unfold position; cbn; lra|].
  unfold allowed, inside. cbn [fst snd nth]. rewrite andb_true_iff. intros [_ H]. apply fle in H. pose proof PI_4. lra.
Qed.

(** A parameter that is infinite, such as the upper end of Truncated(HalfNormal(1), lower=1), has no slider: the method fails. *)
Theorem C66_infinite_refuted : forall names, (4 <= List.length names)%nat ->
  sliders rnd names [Floating (Fin 0); Floating (Fin 1); Whole 1; Floating PInf] [real_line; positive; real_line; real_line] = Err OverflowError.
Proof using.
  intros names H. destruct names as [|a [|b [|c [|d names]]]]; cbn in H; try lia.
  unfold real_line, positive. cbn [sliders]. unfold get_slider, generate_range. cbn [value_of].
  assert (Z : Reqb 1 0 = false) by (apply Reqb_false; lra). rewrite Reqb_refl, Z. reflexivity.
Qed.

(** Binomial(n=5, p=0.5): the slider of n offers 0, which is not within the limits of n. *)
Theorem C66_integer_slider_refuted :
  exists s, get_slider rnd (Whole 5) (Fin eps) (Some PInf) = Ok s /\ position s 0 /\
    hd_error (params_support Binomial ["n"; "p"] None) = Some (Fin eps, Some PInf) /\ ~ allowed 0 (Fin eps, Some PInf).
Proof using Hr.
  assert (A : allowed (IZR 5) (Fin eps, Some PInf)).
  { unfold allowed, inside. cbn [fst snd]. apply andb_true_iff. split; [|reflexivity]. apply fle. pose proof eps_small. lra. }
  destruct (C66_integer_slider 5 (Fin eps) PInf ltac:(discriminate) A) as [s [E [_ [P _]]]].
  exists s. split; [exact E|]. split; [|split; [reflexivity|]].
  - unfold get_slider in E. cbn [value_of] in E. unfold generate_range in E.
    assert (Z : Reqb 5 0 = false) by (apply Reqb_false; lra). rewrite Z in E. cbn [bind] in E.
    injection E as <-. unfold position in *. cbn [s_min s_max] in *. split; [|destruct P; lra].
    assert (T : trunc eps = 0%Z).
    { unfold trunc. pose proof eps_pos. pose proof eps_small. replace (Rleb 0 eps) with true by (symmetry; apply Rleb_true; lra). apply Int_part_unique. lra. }
    rewrite T. lra.
  - unfold allowed, inside. cbn [fst snd]. rewrite andb_true_iff. intros [H _]. apply fle in H. pose proof eps_pos. lra.
Qed.
End Round.

(** An undefined distribution of any family starts from the table of default values, a Truncated or Censored from that and the
    one of its base; a defined one from its own parameters; array parameters are refused. *)
Theorem C66_starts : forall f c base kind params,
  first_values (Fam f) base false kind params = Ok (Default (Fam f)) /\
  first_values CTruncated (Fam f) false kind params = Ok (Both (Fam f)) /\
  first_values CCensored (Fam f) false kind params = Ok (Both (Fam f)) /\
  ((forall v, In v params -> exists x, v = Num x) -> first_values c base true kind params = Ok Own) /\
  ((exists l, In (Arr l) params) -> (kind = "discrete" \/ kind = "continuous") -> c <> CCategorical -> c <> CMixture ->
   first_values c base true kind params = Err ValueError).
Proof.
  intros f c base kind params. split; [reflexivity|]. split; [reflexivity|]. split; [reflexivity|]. split.
  - intros H. unfold first_values, valid_scalar_params. cbn [negb]. destruct (negb _); [reflexivity|].
    replace (forallb plain_number params) with true; [reflexivity|]. symmetry. apply forallb_forall. intros v Hv. destruct (H v Hv) as [x ->]. reflexivity.
  - intros [l Hl] K C1 C2. unfold first_values, valid_scalar_params. cbn [negb].
    replace (forallb plain_number params) with false.
    2:{ symmetry. apply not_true_is_false. rewrite forallb_forall. intros F. specialize (F _ Hl). discriminate. }
    replace (negb (existsb (String.eqb kind) ["discrete"; "continuous"])) with false by (destruct K as [->| ->]; reflexivity).
    replace (existsb (String.eqb (class_name c)) ["Categorical"; "Mixture"]) with false; [reflexivity|].
    destruct c as [f'| | | | | | |]; try reflexivity; try congruence. destruct f'; reflexivity.
Qed.

(** The sliders of a Categorical: one for each probability, each from 0 to 1 and set to its probability when that is not 0. *)
Theorem C66_categorical : forall rnd ps, (forall p, In p ps -> p <> 0) -> exists l,
  categorical_sliders rnd 0 (map (fun p => Floating (Fin p)) ps) = Ok l /\
  Forall2 (fun p s => s_min s = 0 /\ s_max s = 1 /\ s_value s = Floating (Fin p) /\ Rabs p / 100 < s_step s <= Rabs p / 10) ps l.
Proof.
  intros rnd ps. generalize 0%nat. induction ps as [|p ps IH]; intros i H; [exists []; split; [reflexivity | constructor]|].
  destruct (IH (S i)) as (l & E & F); [intros q Hq; apply H; right; exact Hq|].
  pose proof (H p (or_introl eq_refl)) as N. pose proof (power_spec p N) as P.
  exists ({| s_min := 0; s_max := 1; s_step := powerRZ 10 (power p) / 10; s_value := Floating (Fin p) |} :: l). split.
  - cbn [map categorical_sliders]. unfold get_slider, generate_range. cbn [value_of]. rewrite Reqb_false by exact N. cbn [bind]. rewrite E. reflexivity.
  - constructor; [|exact F]. cbn [s_min s_max s_step s_value]. repeat split; lra.
Qed.
(** A probability of 0 breaks this: its slider goes from -10 to 10. *)
Theorem C66_categorical_refuted : ~ (forall rnd ps, (forall p, In p ps -> 0 <= p <= 1) -> exists l,
  categorical_sliders rnd 0 (map (fun p => Floating (Fin p)) ps) = Ok l /\ Forall (fun s => 0 <= s_min s /\ s_max s <= 1) l).
Proof.
  intros H. destruct (H (fun x _ => x) [0]) as (l & E & F); [intros p [<-|[]]; lra|].
  cbn [map categorical_sliders] in E. unfold get_slider, generate_range in E. cbn [value_of] in E.
  assert (R0 : Reqb 0 0 = true) by (unfold Reqb; destruct (Req_EM_T 0 0); [reflexivity | lra]).
  rewrite R0 in E. cbn [bind] in E. injection E as <-. inversion F as [|x y [A B] _]; subst. cbn in A. lra.
Qed.

(** An undefined Hurdle has no default values, and neither has a Truncated or Censored of a class without them. *)
Theorem C66_hurdle_refuted : forall base kind params, first_values CHurdle base false kind params = Err KeyError /\
  first_values CTruncated CHurdle false kind params = Err KeyError /\ first_values CCensored CHurdle false kind params = Err KeyError.
Proof. repeat split; reflexivity. Qed.

(** Concrete cases. Rounding to the nearest decimal is such a rounding. *)
Definition nearest (x : R) (d : Z) : R := IZR (Int_part (x * powerRZ 10 d + 1 / 2)) * powerRZ 10 (- d).
Example C66_rounds_case : rounds nearest.
Proof.
  intros x d. unfold nearest. set (p := powerRZ 10 d). assert (P : 0 < p) by (apply powerRZ_lt; lra).
  assert (Q : powerRZ 10 (- d) = / p) by (rewrite powerRZ_neg by lra; unfold p; apply powerRZ_inv; lra). rewrite Q.
  assert (I : 0 < / p) by (apply Rinv_0_lt_compat; exact P).
  destruct (base_Int_part (x * p + 1 / 2)) as [A B]. set (k := IZR (Int_part (x * p + 1 / 2))) in *.
  replace (k * / p - x) with ((k - x * p) * / p) by (field; lra).
  rewrite Rabs_mult, (Rabs_right (/ p)) by lra. assert (Rabs (k - x * p) <= 1 / 2) by (apply Rabs_le; lra). nra.
Qed.
Example C66_slider_case : allowed 3 (Fin eps, Some PInf) /\ (3 : R) <> 0.
Proof. split; [|lra]. unfold allowed, inside. cbn [fst snd]. apply andb_true_iff. split; [|reflexivity]. apply fle. pose proof eps_small. lra. Qed.
Example C66_family_case : Forall2 (fun v b => exists x u, value_of v = Fin x /\ x <> 0 /\ snd b = Some u /\ allowed x b)
  [Floating (Fin 2); Whole 5] (params_support Gumbel ["mu"; "beta"] None).
Proof.
  constructor; [exists 2, PInf|constructor; [exists 5, PInf|constructor]]; (split; [reflexivity|]); (split; [lra|]); (split; [reflexivity|]);
    unfold allowed, inside; [reflexivity|]. cbn [fst snd]. apply andb_true_iff. split; [|reflexivity]. apply fle. pose proof eps_small. lra.
Qed.

Print Assumptions C66_range.
Print Assumptions C66_float_slider.
Print Assumptions C66_integer_slider.
Print Assumptions C66_sliders.
Print Assumptions C66_finite_opens.
Print Assumptions C66_zero_refuted.
Print Assumptions C66_infinite_refuted.
Print Assumptions C66_integer_slider_refuted.
Print Assumptions C66_starts.
Print Assumptions C66_hurdle_refuted.
Print Assumptions C66_categorical.
Print Assumptions C66_categorical_refuted.
