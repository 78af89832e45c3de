(** Rounding to double precision: lemmas. *)
From Coq Require Import List Bool Reals ZArith Lra Lia.
From Flocq Require Import Core Plus_error.
From Verif Require Import XR LawModel FloatModel.
Import ListNotations.
Open Scope R_scope.

#[local] Instance prec53 : Prec_gt_0 53. Proof. reflexivity. Qed.

Lemma rnd_le x y : x <= y -> rnd x <= rnd y.
Proof. apply round_le; typeclasses eauto. Qed.
Lemma rnd_id x : double x -> rnd x = x.
Proof. intro H. apply round_generic; [typeclasses eauto|exact H]. Qed.
Lemma rnd_double x : double (rnd x).
Proof. apply generic_format_round; typeclasses eauto. Qed.
Lemma double_0 : double 0. Proof. apply generic_format_0. Qed.
Lemma double_bpow e : (-1074 <= e)%Z -> double (bpow radix2 e).
Proof. intro H. apply generic_format_bpow. unfold FLT_exp. lia. Qed.
Lemma double_1 : double 1. Proof. apply (double_bpow 0). lia. Qed.
Lemma double_2 : double 2. Proof. apply (double_bpow 1). lia. Qed.
Lemma double_half : double (/ 2). Proof. apply (double_bpow (-1)). lia. Qed.
Lemma double_opp x : double x -> double (- x). Proof. apply generic_format_opp. Qed.
Lemma rnd_0 : rnd 0 = 0. Proof. apply rnd_id, double_0. Qed.
Lemma rnd_1 : rnd 1 = 1. Proof. apply rnd_id, double_1. Qed.
Lemma rnd_ge x y : double x -> x <= y -> x <= rnd y.
Proof. intros D H. rewrite <- (rnd_id x D). apply rnd_le, H. Qed.
Lemma rnd_upper x y : double y -> x <= y -> rnd x <= y.
Proof. intros D H. rewrite <- (rnd_id y D). apply rnd_le, H. Qed.
Lemma rnd_pos x : 0 <= x -> 0 <= rnd x.
Proof. apply rnd_ge, double_0. Qed.
Lemma rnd_unit x : 0 <= x <= 1 -> 0 <= rnd x <= 1.
Proof. intros [A B]. split; [apply rnd_pos, A|apply rnd_upper; [apply double_1|exact B]]. Qed.

Lemma fadd_double a b : double (fadd a b). Proof. apply rnd_double. Qed.
Lemma fsub_double a b : double (fsub a b). Proof. apply rnd_double. Qed.
Lemma fmul_double a b : double (fmul a b). Proof. apply rnd_double. Qed.
Lemma fdiv_double a b : double (fdiv a b). Proof. apply rnd_double. Qed.

Lemma fsub_pos a b : double a -> double b -> a < b -> 0 < fsub b a.
Proof.
  intros A B H. destruct (Rle_lt_or_eq_dec 0 (fsub b a)) as [L|E]; [apply rnd_pos; lra|exact L|].
  exfalso. symmetry in E. unfold fsub, rnd, Rminus in E.
  apply (round_plus_eq_0 radix2 (FLT_exp (-1074) 53) ZnearestE) in E; [lra|exact B|apply double_opp, A].
Qed.
Lemma fsub_0 a b : double a -> double b -> (fsub a b = 0 <-> a = b).
Proof.
  intros A B. split; [|intros ->; unfold fsub; rewrite Rminus_eq_0; apply rnd_0].
  intro E. unfold fsub, rnd, Rminus in E. apply (round_plus_eq_0 radix2 (FLT_exp (-1074) 53) ZnearestE) in E; [lra|exact A|apply double_opp, B].
Qed.
Lemma rnd_neg x : x <= 0 -> rnd x <= 0.
Proof. apply rnd_upper, double_0. Qed.

(** Half a unit in the last place. *)
Lemma rnd_err e x : (-1074 <= e - 53)%Z -> Rabs x <= bpow radix2 e -> Rabs (rnd x - x) <= bpow radix2 (e - 54).
Proof.
  intros He [H|H].
  - destruct (Req_dec x 0) as [-> |N].
    { rewrite rnd_0, Rminus_0_r, Rabs_R0. apply bpow_ge_0. }
    eapply Rle_trans; [apply error_le_half_ulp; typeclasses eauto|].
    replace (bpow radix2 (e - 54)) with (/ 2 * bpow radix2 (e - 53)).
    2:{ change (/ 2) with (bpow radix2 (-1)). rewrite <- bpow_plus. f_equal. lia. }
    apply Rmult_le_compat_l; [lra|]. rewrite ulp_neq_0 by exact N. apply bpow_le. unfold cexp, FLT_exp.
    pose proof (mag_le_bpow radix2 x e N H). lia.
  - destruct (Rle_dec 0 x) as [P|P]; [rewrite Rabs_pos_eq in H by exact P|rewrite Rabs_left in H by lra; assert (E : x = - bpow radix2 e) by lra; subst x];
    rewrite rnd_id, Rminus_eq_0, Rabs_R0; try apply bpow_ge_0; [rewrite H|apply double_opp]; apply double_bpow; lia.
Qed.
Lemma rnd_err_1 x : -1 <= x <= 1 -> Rabs (rnd x - x) <= bpow radix2 (-54).
Proof. intro H. apply (rnd_err 0); [lia|]. cbn. apply Rabs_le, H. Qed.

Lemma small_54 : bpow radix2 (-54) = / 18014398509481984. Proof. reflexivity. Qed.
Lemma small_53 : bpow radix2 (-53) = / 9007199254740992. Proof. reflexivity. Qed.
Lemma small_52 : bpow radix2 (-52) = / 4503599627370496. Proof. reflexivity. Qed.
Ltac small := rewrite ?small_52, ?small_53, ?small_54 in *.

(** What is less than half a unit above 1 rounds to 1. *)
Lemma rnd_near_1 x : x <= 1 + bpow radix2 (-53) -> rnd x <= 1.
Proof.
  intro H. destruct (Rle_dec x 1) as [L|L]; [apply rnd_upper; [apply double_1|exact L]|].
  apply Rle_trans with (rnd (1 + bpow radix2 (-53))); [apply rnd_le, H|].
  right. unfold rnd, round, scaled_mantissa, cexp.
  rewrite (mag_unique_pos radix2 _ 1).
  2:{ rewrite small_53. cbn. lra. }
  change (FLT_exp (-1074) 53 1) with (-52)%Z.
  replace ((1 + bpow radix2 (-53)) * bpow radix2 (- -52)) with (IZR 4503599627370496 + / 2).
  2:{ rewrite small_53. cbn. field. }
  unfold Znearest. replace (Zfloor (IZR 4503599627370496 + / 2)) with 4503599627370496%Z.
  2:{ symmetry. apply Zfloor_imp. rewrite plus_IZR. lra. }
  rewrite Rcompare_Eq by lra. cbn. unfold F2R. cbn. field.
Qed.

(** The value of a rounded number of which the binary exponent is known. *)
Lemma rnd_at e x : (-1074 <= e)%Z -> bpow radix2 (e + 52) <= x < bpow radix2 (e + 53) ->
  rnd x = IZR (ZnearestE (x * bpow radix2 (- e))) * bpow radix2 e.
Proof.
  intros He H. unfold rnd, round, scaled_mantissa, cexp. rewrite (mag_unique_pos radix2 x (e + 53)).
  2:{ replace (e + 53 - 1)%Z with (e + 52)%Z by lia. exact H. }
  replace (FLT_exp (-1074) 53 (e + 53)) with e by (unfold FLT_exp; lia). reflexivity.
Qed.
Lemma near n y : Rabs (y - IZR n) < / 2 -> ZnearestE y = n.
Proof. apply Znearest_imp. Qed.
Lemma tie n y : y = IZR n + / 2 -> ZnearestE y = if Z.even n then n else (n + 1)%Z.
Proof.
  intros ->. unfold Znearest. replace (Zfloor (IZR n + / 2)) with n.
  2:{ symmetry. apply Zfloor_imp. rewrite plus_IZR. lra. }
  rewrite Rcompare_Eq by lra. destruct (Z.even n) eqn:E; cbn; [reflexivity|].
  apply Zceil_imp. rewrite plus_IZR. split; [replace (n + 1 - 1)%Z with n by lia; lra|lra].
Qed.
(** Computing a rounding: [e] the exponent of the last digit, [n] the digits. *)
Lemma rnd_is e n x : (-1074 <= e)%Z -> bpow radix2 (e + 52) <= x < bpow radix2 (e + 53) ->
  Rabs (x * bpow radix2 (- e) - IZR n) < / 2 -> rnd x = IZR n * bpow radix2 e.
Proof. intros He H N. rewrite (rnd_at e x He H), (near n _ N). reflexivity. Qed.
Lemma rnd_tie e n x : (-1074 <= e)%Z -> bpow radix2 (e + 52) <= x < bpow radix2 (e + 53) ->
  x * bpow radix2 (- e) = IZR n + / 2 -> rnd x = IZR (if Z.even n then n else n + 1) * bpow radix2 e.
Proof. intros He H N. rewrite (rnd_at e x He H), (tie n _ N). reflexivity. Qed.
