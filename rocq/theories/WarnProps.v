(** C74: the warnings of the elicitation functions. *)
From Coq Require Import List Bool String Ascii Reals ZArith Lra Lia.
From Verif Require Import Base RLists XR FamModel LawModel LawProofs OptModel SelProps BoundModel MleModel MleProps ApiModel ApiProps SampleModel SampleProps WarnModel.
Import ListNotations.
Open Scope R_scope.

(* ------------------------------------------------------------ specification *)
(** A law on the natural numbers with mass function [pmf], and its cumulative distribution function at a real number. *)
Definition cdf_of (pmf : nat -> R) (x : xr) : xr :=
  match x with
  | Fin r => Fin (if Rltb r 0 then 0 else Rsum (map pmf (seq 0 (S (Z.to_nat (Int_part r))))))
  | NInf => Fin 0 | PInf => Fin 1 | NaN => NaN
  end.
(** The probability of the integers from [l] to [u], both included. *)
Definition mass_between (pmf : nat -> R) (l u : nat) : R := Rsum (map pmf (seq l (u + 1 - l))).
(** [got] is within [percent] per cent of [wanted]. *)
Definition within_percent (percent wanted got : R) : Prop := Rabs (got - wanted) <= percent / 100 * Rabs wanted.

(* ------------------------------------------------------------ lemmas *)
Lemma percent_error c w t : w <> 0 ->
  xltb (Fin t) (xabs (xmul (xdiv (xsub (Fin c) (Fin w)) (Fin w)) (Fin 100))) = false <-> within_percent t w c.
Proof.
  intro N. cbn [xsub xadd xneg xdiv]. rewrite Reqb_false by exact N. cbn [xmul xabs xltb]. unfold within_percent.
  replace ((c + - w) / w * 100) with ((c - w) * / w * 100) by (unfold Rdiv, Rminus; ring).
  rewrite !Rabs_mult, Rabs_inv, (Rabs_right 100) by lra.
  assert (P : 0 < Rabs w) by (apply Rabs_pos_lt; exact N).
  assert (Q : Rabs (c - w) = Rabs (c - w) * / Rabs w * 100 * (Rabs w / 100)) by (field; lra).
  split.
  - intro H. apply Rltb_ge in H. rewrite Q. replace (t / 100 * Rabs w) with (t * (Rabs w / 100)) by field.
    apply Rmult_le_compat_r; [lra|exact H].
  - intro H. apply Rltb_false. apply (Rmult_le_reg_r (Rabs w / 100)); [lra|]. rewrite <- Q. lra.
Qed.
Lemma IZR_int z : Int_part (IZR z) = z.
Proof.
  assert (IZR (Int_part (IZR z)) <= IZR z /\ IZR (Int_part (IZR z)) - IZR z > -1) as [A B] by apply base_Int_part.
  apply le_IZR in A. assert (IZR z < IZR (Int_part (IZR z) + 1)) as C by (rewrite plus_IZR; lra). apply lt_IZR in C. lia.
Qed.
Lemma Rsum_app_local a b : Rsum (a ++ b) = Rsum a + Rsum b.
Proof. induction a as [|x a IH]; cbn [app]; [rewrite Rsum_nil; ring|rewrite !Rsum_cons, IH; ring]. Qed.

(* ------------------------------------------------------------ maxent *)
(** For a discrete distribution and integer bounds the mass that is checked is the probability of the integers from lower
    to upper, both included. *)
Theorem C74_discrete_mass : forall pmf l u, (l <= u)%nat ->
  computed_mass true (cdf_of pmf) (Fin (INR l)) (Fin (INR u)) = Fin (mass_between pmf l u).
Proof.
  intros pmf l u H. unfold computed_mass. cbn [xsub xadd xneg cdf_of]. f_equal. unfold mass_between.
  rewrite (Rltb_false (INR u)) by apply pos_INR. rewrite (INR_IZR_INZ u), IZR_int, Nat2Z.id.
  destruct l as [|l].
  - rewrite Rltb_true by (cbn; lra). replace (u + 1 - 0)%nat with (S u) by lia. lra.
  - replace (INR (S l) + - (1)) with (IZR (Z.of_nat l)) by (rewrite S_INR, INR_IZR_INZ; lra).
    rewrite Rltb_false by (rewrite <- INR_IZR_INZ; apply pos_INR). rewrite IZR_int, Nat2Z.id.
    replace (S u) with (S l + (u + 1 - S l))%nat by lia. rewrite seq_app, map_app, Rsum_app_local. cbn [Nat.add]. lra.
Qed.

(** maxent is silent about the mass exactly when the distribution has the requested mass between the bounds up to one
    hundredth of a per cent; otherwise it reports the mass it found next to the one requested. *)
Theorem C74_maxent_mass : forall discrete cdf lower upper mass c, 0 < mass ->
  computed_mass discrete cdf (number lower) (number upper) = Fin c ->
  (forall w g, In (MassMissed w g) (maxent_warnings discrete cdf lower upper (Fin mass)) ->
     w = Fin mass /\ g = Fin c /\ ~ within_percent 0.01 mass c) /\
  (~ within_percent 0.01 mass c -> In (MassMissed (Fin mass) (Fin c)) (maxent_warnings discrete cdf lower upper (Fin mass))).
Proof.
  intros discrete cdf lower upper mass c P E. unfold maxent_warnings, relative_error. rewrite E.
  pose proof (percent_error c mass 0.01 ltac:(lra)) as Q. set (e := xabs _) in *.
  assert (Q1 : xltb (Fin 0.01) e = true -> ~ within_percent 0.01 mass c) by (intros T W; apply Q in W; congruence).
  split.
  - intros w g I. apply in_app_or in I. destruct I as [I|I].
    + destruct (discrete && _); [destruct I as [I|[]]; discriminate|destruct I].
    + destruct (xltb (Fin 0.01) e) eqn:T; [|destruct I]. destruct I as [I|[]]. injection I as <- <-. auto.
  - intro W. apply in_or_app. right. destruct (xltb (Fin 0.01) e) eqn:T; [left; reflexivity|].
    exfalso. apply W, Q. reflexivity.
Qed.

(** For Python numbers the complaint about the bounds is made exactly when the distribution is discrete and one of them
    is not an integer. *)
Definition python_number (n : pynum) : Prop := match n with PyInt _ | PyFloat _ => True | _ => False end.
Definition integral (n : pynum) : Prop := exists z, number n = Fin (IZR z).
Lemma is_integer_num_spec n : python_number n -> (is_integer_num n = true <-> integral n).
Proof.
  destruct n as [z|x|z|x]; cbn; intro P; try contradiction; unfold integral; cbn [number].
  - split; [eauto|reflexivity].
  - destruct x as [r| | |]; cbn; split; intro H; try discriminate; try (elim H; discriminate).
    + destruct (Reqb_spec r (IZR (Int_part r))) as [E|]; [|discriminate]. exists (Int_part r). f_equal. exact E.
    + destruct H as [z H]. injection H as ->. rewrite IZR_int. apply Reqb_refl.
Qed.
Theorem C74_maxent_integers : forall discrete cdf lower upper mass, python_number lower -> python_number upper ->
  (In BoundsNotIntegers (maxent_warnings discrete cdf lower upper mass) <->
   discrete = true /\ ~ (integral lower /\ integral upper)).
Proof.
  intros discrete cdf lower upper mass L U. unfold maxent_warnings, end_points_ints.
  apply is_integer_num_spec in L, U. split.
  - intro I. apply in_app_or in I. destruct I as [I|I].
    + destruct discrete; cbn [andb] in I; [|destruct I]. split; [reflexivity|]. intros [A B].
      apply L in A. apply U in B. rewrite A, B in I. destruct I.
    + destruct (xltb _ _); [|destruct I]. destruct I as [I|[]]; discriminate.
  - intros [-> N]. apply in_or_app. left. cbn [andb].
    destruct (is_integer_num lower) eqn:A; destruct (is_integer_num upper) eqn:B; cbn [andb negb]; try (left; reflexivity).
    exfalso. apply N. split; [apply L|apply U]; reflexivity.
Qed.

(** FINDING. Integers from numpy are not recognised: maxent complains that bounds taken from an array of integers are not
    integers. *)
Theorem C74_numpy_integers_refuted : forall cdf a b mass,
  integral (NpInt a) /\ integral (NpInt b) /\ In BoundsNotIntegers (maxent_warnings true cdf (NpInt a) (NpInt b) mass).
Proof. intros cdf a b mass. split; [exists a; reflexivity|]. split; [exists b; reflexivity|]. left. reflexivity. Qed.

(** FINDING. If the mass of the fitted distribution is not a number nothing is said. *)
Theorem C74_nan_mass_refuted : forall cdf lower upper mass, computed_mass false cdf (number lower) (number upper) = NaN ->
  maxent_warnings false cdf lower upper mass = [].
Proof. intros cdf lower upper mass E. unfold maxent_warnings, relative_error. rewrite E. reflexivity. Qed.

(** All of the mass at 2. *)
Definition at_two (k : nat) : R := if Nat.eqb k 2 then 1 else 0.
(** FINDING. With a lower bound that is not an integer the mass of a discrete distribution includes the integer below it:
    all of the mass at 2, none of it between 2.5 and 4, and no warning about the mass. *)
Theorem C74_fractional_bound_refuted :
  maxent_warnings true (cdf_of at_two) (PyFloat (Fin 2.5)) (PyInt 4) (Fin 1) = [BoundsNotIntegers] /\
  (forall k, 2.5 <= INR k <= 4 -> at_two k = 0).
Proof.
  assert (I25 : Int_part 2.5 = 2%Z) by (apply Int_part_unique; lra).
  assert (I15 : Int_part (2.5 + - (1)) = 1%Z) by (apply Int_part_unique; lra).
  split.
  - unfold maxent_warnings, end_points_ints. cbn [is_integer_num float_is_integer number]. rewrite I25.
    rewrite Reqb_false by lra. cbn [andb negb app]. f_equal.
    unfold relative_error, computed_mass. cbn [xsub xadd xneg cdf_of]. rewrite I15, IZR_int, !Rltb_false by lra.
    change (Z.to_nat 4) with 4%nat. change (Z.to_nat 1) with 1%nat. cbn [seq map]. unfold at_two. cbn [Nat.eqb]. unfold Rsum. cbn [fold_right].
    cbn [xsub xadd xneg xdiv]. rewrite Reqb_false by lra. cbn [xmul xabs xltb].
    rewrite Rltb_false; [reflexivity|]. match goal with |- Rabs ?x <= _ => replace x with 0 by lra end. rewrite Rabs_R0. lra.
  - intros k H. unfold at_two. destruct (Nat.eqb_spec k 2) as [->|]; [|reflexivity]. cbn in H. lra.
Qed.

(* ------------------------------------------------------------ quartile *)
(** quartile is silent exactly when half of the mass, up to one hundredth of a per cent of it, is between the first and the
    third value; otherwise it prints the mass below each of the three. *)
Theorem C74_quartile : forall cdf q1 q2 q3 a b, cdf q1 = Fin a -> cdf q3 = Fin b ->
  (within_percent 0.01 0.5 (b - a) -> quartile_warnings false cdf q1 q2 q3 = []) /\
  (~ within_percent 0.01 0.5 (b - a) -> quartile_warnings false cdf q1 q2 q3 = [QuartilesMissed [Fin a; cdf q2; Fin b]]).
Proof.
  intros cdf q1 q2 q3 a b A B. unfold quartile_warnings, relative_error, computed_mass. rewrite A, B.
  cbn [xsub xadd xneg map]. rewrite A, B.
  pose proof (percent_error (b - a) 0.5 0.01 ltac:(lra)) as Q. cbn [xsub xadd xneg] in Q. unfold Rminus in *.
  set (e := xltb _ _) in *. split; intro W.
  - apply Q in W. rewrite W. reflexivity.
  - destruct e; [reflexivity|]. exfalso. apply W, Q. reflexivity.
Qed.
(** A continuous distribution with the requested quartiles is accepted. *)
Theorem C74_quartile_exact : forall cdf q1 q2 q3, cdf q1 = Fin 0.25 -> cdf q3 = Fin 0.75 ->
  quartile_warnings false cdf q1 q2 q3 = [].
Proof.
  intros cdf q1 q2 q3 A B. apply (C74_quartile cdf q1 q2 q3 _ _ A B). unfold within_percent.
  match goal with |- Rabs ?x <= _ => replace x with 0 by lra end. rewrite Rabs_R0. rewrite Rabs_right; lra.
Qed.
(** FINDING. Only the mass between the first and the third value is looked at: with 10, 20 and 60 per cent below the three
    values instead of 25, 50 and 75, there is no warning. *)
Theorem C74_quartile_shifted_refuted : forall cdf q1 q2 q3, cdf q1 = Fin 0.1 -> cdf q2 = Fin 0.2 -> cdf q3 = Fin 0.6 ->
  quartile_warnings false cdf q1 q2 q3 = [].
Proof.
  intros cdf q1 q2 q3 A _ B. apply (C74_quartile cdf q1 q2 q3 _ _ A B). unfold within_percent.
  match goal with |- Rabs ?x <= _ => replace x with 0 by lra end. rewrite Rabs_R0. rewrite Rabs_right; lra.
Qed.
(** FINDING. For discrete distributions the probability of the first value is counted with the mass between, but not in the
    quartiles: a distribution whose quartiles are exactly those requested is reported as wrong as soon as that probability
    is more than 0.00005. *)
Theorem C74_quartile_discrete_refuted : forall cdf q1 q2 q3 p, cdf q1 = Fin 0.25 -> cdf q2 = Fin 0.5 -> cdf q3 = Fin 0.75 ->
  cdf (xsub q1 (Fin 1)) = Fin (0.25 - p) -> 0.00005 < p ->
  quartile_warnings true cdf q1 q2 q3 = [QuartilesMissed [Fin 0.25; Fin 0.5; Fin 0.75]].
Proof.
  intros cdf q1 q2 q3 p A B C D P. unfold quartile_warnings, relative_error, computed_mass. rewrite C, D.
  cbn [map]. rewrite A, B, C.
  pose proof (percent_error (0.75 - (0.25 - p)) 0.5 0.01 ltac:(lra)) as Q. cbn [xsub xadd xneg] in *. unfold Rminus in Q at 1.
  set (e := xltb _ _) in *. destruct e; [reflexivity|]. exfalso. destruct Q as [Q _]. specialize (Q eq_refl).
  unfold within_percent in Q. rewrite (Rabs_right 0.5) in Q by lra. rewrite Rabs_right in Q by lra. lra.
Qed.

(* ------------------------------------------------------------ match_moments and match_quantiles *)
Lemma match_error_ok t w g : w <> - 0.000001 ->
  (xltb (Fin t) (match_error (Fin g) (Fin w)) = false <-> Rabs (g - w) <= t / 100 * Rabs (w + 0.000001)).
Proof.
  intro N. assert (N' : w + 0.000001 <> 0) by lra. pose proof (percent_error (g - w + (w + 0.000001)) (w + 0.000001) t N') as P.
  unfold match_error. unfold within_percent in P. cbn [xsub xadd xneg] in *.
  replace (g - w + (w + 0.000001) + - (w + 0.000001)) with (g + - w) in P by ring.
  replace (g - w + (w + 0.000001) - (w + 0.000001)) with (g - w) in P by ring. exact P.
Qed.
Lemma at_index_spec {A} (l : list A) i x : at_index l i = Ok x <-> nth_error l i = Some x.
Proof. unfold at_index. destruct (nth_error l i); split; congruence. Qed.

(** The lines of the message, for lists of the same length: those of the entries whose error is above the tolerance, in
    order. *)
Definition off {V} (tol : R) (e : V * xr * xr) : bool := xltb (Fin tol) (match_error (snd e) (snd (fst e))).
Lemma mismatch_lines_spec {V} (values : list V) tol : forall target fitted v0 t0 f0, 
  List.length values = List.length target -> List.length target = List.length fitted ->
  List.length v0 = List.length t0 -> List.length t0 = List.length f0 ->
  mismatch_lines (v0 ++ values) (t0 ++ target) (f0 ++ fitted) tol (List.length v0)
    (map (fun p => match_error (fst p) (snd p)) (combine fitted target)) = Ok (filter (off tol) (combine (combine values target) fitted)).
Proof.
  induction values as [|v values IH]; intros [|t target] [|g fitted] v0 t0 f0 L1 L2 L3 L4; try discriminate; [reflexivity|].
  cbn [combine map fst snd mismatch_lines]. injection L1 as L1. injection L2 as L2.
  specialize (IH target fitted (v0 ++ [v])%list (t0 ++ [t])%list (f0 ++ [g])%list L1 L2).
  rewrite !app_length, <- !app_assoc in IH. cbn [app List.length] in IH.
  replace (List.length v0 + 1)%nat with (S (List.length v0)) in IH by lia. rewrite IH by lia.
  assert (N : forall A (l r : list A) x, at_index (l ++ x :: r) (List.length l) = Ok x).
  { intros A l r x. apply at_index_spec. rewrite nth_error_app2, Nat.sub_diag by lia. reflexivity. }
  assert (N2 : forall A (l r : list A) x k, k = List.length l -> at_index (l ++ x :: r) k = Ok x) by (intros; subst; apply N).
  cbn [filter]. unfold off at 2. cbn [fst snd].
  destruct (xltb (Fin tol) (match_error g t)).
  - rewrite N, N2, N2 by lia. reflexivity.
  - reflexivity.
Qed.
Lemma existsb_filter {A} (p : A -> bool) l : existsb p l = false <-> filter p l = [].
Proof. induction l as [|x l IH]; cbn; [tauto|]. destruct (p x); cbn; [split; discriminate|exact IH]. Qed.
Lemma existsb_errors {V} tol (values : list V) : forall target fitted,
  List.length values = List.length target -> List.length target = List.length fitted ->
  existsb (xltb (Fin tol)) (map (fun p => match_error (fst p) (snd p)) (combine fitted target)) =
  existsb (off tol) (combine (combine values target) fitted).
Proof.
  induction values as [|v values IH]; intros [|t target] [|g fitted] L1 L2; try discriminate; [reflexivity|].
  injection L1 as L1. injection L2 as L2. cbn. rewrite IH by assumption. reflexivity.
Qed.
Lemma check_same_length {V} (values : list V) target fitted tol :
  List.length values = List.length target -> List.length target = List.length fitted ->
  check_relative_error values target fitted tol = Ok (match filter (off tol) (combine (combine values target) fitted) with
                                                       | [] => None | l => Some l end).
Proof.
  intros L1 L2. unfold check_relative_error, broadcast. rewrite <- L2, Nat.eqb_refl. cbn [bind].
  rewrite (existsb_errors tol values target fitted L1 L2).
  pose proof (mismatch_lines_spec values tol target fitted [] [] [] L1 L2 eq_refl eq_refl) as M. cbn [app List.length] in M.
  rewrite M. destruct (existsb _ _) eqn:E.
  - cbn [bind]. destruct (filter _ _) eqn:F; [|reflexivity]. apply existsb_filter in F. congruence.
  - apply existsb_filter in E. rewrite E. reflexivity.
Qed.

(** The warning after matching lists exactly the entries that are off, in order and each with its own label, target and
    value; it is not issued exactly when there are none. An entry is off when it differs from its target by more than the
    tolerance, in per cent of the target plus a millionth. *)
Theorem C74_match_lines : forall V (values : list V) (target fitted : list R) tol, 
  List.length values = List.length target -> List.length target = List.length fitted ->
  (forall w, In w target -> w <> - 0.000001) ->
  exists lines, check_relative_error values (map Fin target) (map Fin fitted) tol = Ok lines /\
  (lines = None <-> forall i w g, nth_error target i = Some w -> nth_error fitted i = Some g ->
                      Rabs (g - w) <= tol / 100 * Rabs (w + 0.000001)) /\
  (forall l v w g, lines = Some l -> (In (v, w, g) l <-> exists i w' g', nth_error values i = Some v /\ w = Fin w' /\ g = Fin g' /\
     nth_error target i = Some w' /\ nth_error fitted i = Some g' /\ tol / 100 * Rabs (w' + 0.000001) < Rabs (g' - w'))).
Proof.
  intros V values target fitted tol L1 L2 N.
  assert (IN : forall v w g, In (v, w, g) (combine (combine values (map Fin target)) (map Fin fitted)) <->
    exists i w' g', nth_error values i = Some v /\ w = Fin w' /\ g = Fin g' /\ nth_error target i = Some w' /\ nth_error fitted i = Some g').
  { clear N. revert target fitted L1 L2. induction values as [|v0 values IH]; intros [|t target] [|f fitted] L1 L2 v w g; try discriminate.
    - cbn. split; [tauto|]. intros ([|i] & ? & ? & H & _); discriminate.
    - injection L1 as L1. injection L2 as L2. cbn [map combine In]. rewrite (IH target fitted L1 L2). split.
      + intros [E|(i & w' & g' & A)].
        * injection E as <- <- <-. exists 0%nat, t, f. repeat split.
        * exists (S i), w', g'. exact A.
      + intros ([|i] & w' & g' & A & B & C & D & E); cbn in *.
        * left. congruence.
        * right. exists i, w', g'. auto. }
  rewrite check_same_length by (rewrite !map_length; assumption).
  set (F := filter _ _). eexists. split; [reflexivity|].
  assert (INF : forall v w g, In (v, w, g) F <-> exists i w' g', nth_error values i = Some v /\ w = Fin w' /\ g = Fin g' /\
     nth_error target i = Some w' /\ nth_error fitted i = Some g' /\ tol / 100 * Rabs (w' + 0.000001) < Rabs (g' - w')).
  { intros v w g. unfold F. rewrite filter_In, IN. unfold off. cbn [fst snd]. split.
    - intros [(i & w' & g' & A & -> & -> & D & E) O]. exists i, w', g'. repeat split; try assumption.
      apply Rnot_le_lt. intro LE. apply match_error_ok in LE; [congruence|]. apply N. eapply nth_error_In. exact D.
    - intros (i & w' & g' & A & -> & -> & D & E & O). split; [exists i, w', g'; repeat split; assumption|].
      destruct (xltb (Fin tol) (match_error (Fin g') (Fin w'))) eqn:X; [reflexivity|].
      apply match_error_ok in X; [lra|]. apply N. eapply nth_error_In. exact D. }
  split.
  - split.
    + intros E i w g T G. destruct F as [|e F'] eqn:EF; [|discriminate]. apply Rnot_lt_le. intro O.
      destruct (nth_error values i) as [v|] eqn:EV.
      * assert (I : In (v, Fin w, Fin g) []) by (apply INF; exists i, w, g; repeat split; assumption). destruct I.
      * apply nth_error_None in EV. assert (nth_error target i = None) by (apply nth_error_None; lia). congruence.
    + intro H. destruct F as [|[[v w] g] F'] eqn:EF; [reflexivity|].
      destruct (proj1 (INF v w g) (or_introl eq_refl)) as (i & w' & g' & _ & _ & _ & D & E & O). specialize (H i w' g' D E). lra.
  - intros l v w g E. destruct F as [|e F'] eqn:EF; [discriminate|]. injection E as <-. apply INF.
Qed.

(** match_moments is silent exactly when every requested moment is met to one hundredth of a per cent, match_quantiles
    when every quantile is met to a tenth of a per cent. *)
Theorem C74_match_silent : forall fitted types vals (target : list R),
  moments fitted types = Ok (map Fin vals) -> List.length target = List.length vals ->
  (forall w, In w target -> w <> - 0.000001) ->
  (match_moments_warning fitted types (map Fin target) = Ok None <->
   forall i w g, nth_error target i = Some w -> nth_error vals i = Some g -> Rabs (g - w) <= 0.0001 * Rabs (w + 0.000001)).
Proof.
  intros fitted types vals target M L N. unfold match_moments_warning. rewrite M. cbn [bind].
  assert (F : forallb xisfinite (map Fin vals) = true) by (apply forallb_forall; intros x I; apply in_map_iff in I; destruct I as (y & <- & _); reflexivity).
  rewrite F. cbn [negb].
  assert (LM : List.length (list_ascii_of_string types) = List.length vals).
  { clear -M. revert vals M. induction types as [|c s IH]; intros vals M; cbn in *.
    - injection M as M. destruct vals; [reflexivity|discriminate].
    - destruct (moment_of fitted c) as [v|e] eqn:E; cbn [bind] in M; [|discriminate].
      destruct (moments fitted s) as [r|] eqn:R; cbn [bind] in M; [|discriminate]. injection M as M.
      destruct vals as [|x vals]; [discriminate|]. injection M as _ M. cbn. f_equal. apply IH. rewrite M. reflexivity. }
  destruct (C74_match_lines _ (list_ascii_of_string types) target vals 0.01 ltac:(lia) ltac:(lia) N) as (lines & E & S & _).
  rewrite E. replace (0.01 / 100) with 0.0001 in S by lra. rewrite <- S. split; [intro Q; injection Q as ->; reflexivity|intros ->; reflexivity].
Qed.
(** match_moments refuses a fit with a moment that is infinite or nan. *)
Theorem C74_match_not_finite : forall fitted types vals target x,
  moments fitted types = Ok vals -> In x vals -> xisfinite x = false -> match_moments_warning fitted types target = Err ValueError.
Proof.
  intros fitted types vals target x M I N. unfold match_moments_warning. rewrite M. cbn [bind].
  replace (forallb xisfinite vals) with false; [reflexivity|]. symmetry. apply not_true_is_false. rewrite forallb_forall. intros A.
  rewrite (A x I) in N. discriminate.
Qed.
Theorem C74_match_quantiles_silent : forall (ppf : xr -> xr) (quantiles target fitted : list R),
  map ppf (map Fin quantiles) = map Fin fitted -> List.length target = List.length quantiles ->
  (forall w, In w target -> w <> - 0.000001) ->
  (match_quantiles_warning ppf (map Fin quantiles) (map Fin target) = Ok None <->
   forall i w g, nth_error target i = Some w -> nth_error fitted i = Some g -> Rabs (g - w) <= 0.001 * Rabs (w + 0.000001)).
Proof.
  intros ppf quantiles target fitted M L N. unfold match_quantiles_warning. rewrite M.
  assert (LF : List.length fitted = List.length quantiles) by (apply (f_equal (@List.length _)) in M; rewrite !map_length in M; lia).
  destruct (C74_match_lines _ (map Fin quantiles) target fitted 0.1 ltac:(rewrite map_length; lia) ltac:(lia) N) as (lines & E & S & _).
  rewrite E. replace (0.1 / 100) with 0.001 in S by lra. rewrite <- S. split; [intro Q; injection Q as ->; reflexivity|intros ->; reflexivity].
Qed.

(** FINDING. A target of zero, such as the skewness of a symmetric source, must be met to one part in ten thousand
    million: the millionth in the denominator is far below any tolerance of the optimiser. *)
Theorem C74_zero_target_refuted : forall V (v : V) g, 0.0000000001 < Rabs g ->
  check_relative_error [v] [Fin 0] [Fin g] 0.01 = Ok (Some [(v, Fin 0, Fin g)]).
Proof.
  intros V v g H. rewrite check_same_length by reflexivity. cbn [combine filter]. unfold off. cbn [fst snd].
  destruct (xltb (Fin 0.01) (match_error (Fin g) (Fin 0))) eqn:X; [reflexivity|].
  apply match_error_ok in X; [|lra]. rewrite Rminus_0_r, (Rabs_right (0 + 0.000001)) in X by lra. lra.
Qed.
(** FINDING. A target that is infinite or not a number is never reported as missed, whatever the fitted value. *)
Theorem C74_infinite_target_refuted : forall V (v : V) w g tol, xisfinite w = false ->
  check_relative_error [v] [w] [Fin g] tol = Ok None.
Proof. intros V v w g tol H. rewrite check_same_length by reflexivity. destruct w; try discriminate H; reflexivity. Qed.
(** FINDING. With an array and a letter given twice the targets are fewer than the moments; if the second value is off the
    message cannot be made, and match_moments raises IndexError. *)
Theorem C74_repeated_letter_refuted : forall mean var std skew kurt g w, array_targets mean var std skew kurt "mm" = [Fin w] ->
  w <> - 0.000001 -> 0.0001 * Rabs (w + 0.000001) < Rabs (g - w) ->
  check_relative_error (list_ascii_of_string "mm") (array_targets mean var std skew kurt "mm") [Fin g; Fin g] 0.01 = Err IndexError.
Proof.
  intros mean var std skew kurt g w -> N H. unfold check_relative_error. cbn [broadcast List.length Nat.eqb map bind fst snd].
  assert (X : xltb (Fin 0.01) (match_error (Fin g) (Fin w)) = true).
  { destruct (xltb (Fin 0.01) (match_error (Fin g) (Fin w))) eqn:X; [reflexivity|]. apply match_error_ok in X; [lra|exact N]. }
  cbn [existsb]. rewrite X. cbn [orb mismatch_lines]. rewrite X. reflexivity.
Qed.

(* ------------------------------------------------------------ mle *)
Section Mle.
Variable ptd_ig : xr -> xr -> xr * xr.
Variable euler_gamma : R.
Variable gamma : R -> xr.
Variable sort : list R -> list R.
Variable skew circmean : list R -> R.
Variables i0e i1e : R -> R.
Variable root_scalar : (R -> R) -> R * R -> res R.
Variable rice : R -> R -> R * R.
Variables mean_of std_of : family -> list (option xr) -> xr.
Variable logpdf : family -> list (option xr) -> R -> xr.
Variable least_squares : (list xr -> xr) -> list xr -> option (list bound) -> list (list xr) * list xr.
Variable minimize : (list xr -> xr) -> list (option xr) -> list bound -> list (list xr) * list xr.
Let likelihood_fit := likelihood_fit ptd_ig euler_gamma gamma rice mean_of std_of logpdf least_squares minimize.
Let fit_mle := fit_mle ptd_ig euler_gamma gamma sort skew circmean i0e i1e root_scalar rice mean_of std_of logpdf least_squares minimize.
Let fit_one := fit_one ptd_ig euler_gamma gamma sort skew circmean i0e i1e root_scalar rice mean_of std_of logpdf least_squares minimize.

Lemma likelihood_fit_freezes f d sample e : likelihood_fit f d sample = Ok e -> frozen e = true.
Proof.
  unfold likelihood_fit, SampleModel.likelihood_fit. destruct (SpecialModel.mean_and_std sample) as [m s]. intro H.
  apply bind_ok in H. destruct H as (d1 & _ & H). unfold optimize_ml in H. cbn [bind] in H. destruct (minimize _ _ _) as [tried x].
  apply bind_ok in H. destruct H as (d2 & _ & H). exact (update_freezes _ _ _ _ H).
Qed.
Lemma fit_mle_freezes f d sample e : fit_mle f d sample = Ok e -> frozen e = true.
Proof.
  unfold fit_mle, SampleModel.fit_mle. fold likelihood_fit.
  destruct f; try apply likelihood_fit_freezes; try apply update_freezes; intro H;
    try (destruct (SpecialModel.mean_and_std sample) as [m s]);
    repeat first [exact (update_freezes _ _ _ _ H) | exact (likelihood_fit_freezes _ _ _ _ H)
                 | apply bind_ok in H; let x := fresh "x" in let E := fresh "E" in destruct H as (x & E & H)].
Qed.

(** The sample is within the support of the candidate, or the candidate takes its ends from the sample. *)
Definition compatible (sample : list R) (c : family * dist) : Prop :=
  In (fst c) [BetaScaled; TruncatedNormal] \/
  forall x, In x sample -> xleb (fst (supp (snd c))) (Fin x) = true /\ xleb (Fin x) (snd (supp (snd c))) = true.
(** mle.py 70-91 and optimization.py 416-449 for a sample with one dimension: what is recorded for each candidate. *)
Definition fit_all (cs : list (family * dist)) (sample : list R) (out : list (dist * xr)) : Prop :=
  Forall2 (fun c o => fit_one (fst c) (snd c) sample = Ok o) cs out.
Definition warned (out : list (dist * xr)) : bool := mle_warns (map (fun o => Some (frozen (fst o))) out).

Lemma fit_one_frozen f d sample e loss : fit_one f d sample = Ok (e, loss) -> frozen d = false ->
  (frozen e = true <-> compatible sample (f, d)).
Proof.
  intros H F. unfold compatible. cbn [fst snd]. unfold fit_one, SampleModel.fit_one in H. fold fit_mle in H.
  apply bind_ok in H. destruct H as (lo & L & H). apply bind_ok in H. destruct H as (up & U & H).
  destruct (np_min_spec _ _ L) as [L1 L2]. destruct (np_max_spec _ _ U) as [U1 U2].
  assert (BND : bounded_by_sample f = true <-> In f [BetaScaled; TruncatedNormal]) by (destruct f; cbn; intuition (discriminate || congruence)).
  assert (REFL : forall x, xleb (Fin x) (Fin x) = true) by (intro x; apply xleb_fin; lra).
  destruct (bounded_by_sample f) eqn:B.
  - unfold check_endpoints_silent in H. cbn [update_bounds setS supp] in H. rewrite !REFL in H. cbn [andb] in H.
    apply bind_ok in H. destruct H as (e0 & M & H). apply bind_ok in H. destruct H as (c & C & H). injection H as -> _.
    apply fit_mle_freezes in M. split; [intros _; left; apply BND; reflexivity|intros _; exact M].
  - assert (NB : ~ In f [BetaScaled; TruncatedNormal]) by (intro K; apply BND in K; discriminate).
    unfold check_endpoints_silent in H. destruct (supp d) as [sl su]. cbn [fst snd].
    destruct (xleb sl (Fin lo) && xleb (Fin up) su) eqn:K.
    + apply bind_ok in H. destruct H as (e0 & M & H). apply bind_ok in H. destruct H as (c & C & H). injection H as -> _.
      apply fit_mle_freezes in M. split; [intros _; right|intros _; exact M]. apply andb_true_iff in K. destruct K as [K1 K2].
      intros x I. specialize (L2 x I). specialize (U2 x I). split.
      * destruct sl; try reflexivity; try discriminate K1. apply xleb_fin in K1. apply xleb_fin. lra.
      * destruct su; try reflexivity; try discriminate K2. apply xleb_fin in K2. apply xleb_fin. lra.
    + injection H as <- _. split; [congruence|]. intros [X|X]; [contradiction|].
      destruct (X lo L1) as [X1 _]. destruct (X up U1) as [_ X2]. rewrite X1, X2 in K. discriminate.
Qed.

(** Given distributions that are not yet defined, mle warns that nothing was fitted exactly when no candidate is
    compatible with the sample. *)
Theorem C74_mle_warning : forall cs sample out, fit_all cs sample out -> (forall c, In c cs -> frozen (snd c) = false) ->
  (warned out = true <-> forall c, In c cs -> ~ compatible sample c).
Proof.
  intros cs sample out H. unfold warned, mle_warns. induction H as [|[f d] [e loss] cs out E H IH]; intro F.
  - split; [intros _ c []|reflexivity].
  - cbn [map forallb fst] in *. specialize (IH (fun c I => F c (or_intror I))).
    pose proof (fit_one_frozen f d sample e loss E (F (f, d) (or_introl eq_refl))) as Z. split.
    + intros W c [<-|I]; apply andb_true_iff in W; destruct W as [W1 W2].
      * intro K. apply Z in K. rewrite K in W1. discriminate.
      * apply IH; assumption.
    + intro A. apply andb_true_iff. split.
      * destruct (frozen e) eqn:K; [|reflexivity]. exfalso. apply (A (f, d) (or_introl eq_refl)). apply Z. reflexivity.
      * apply IH. intros c I. apply A. right. exact I.
Qed.
(** FINDING. One candidate that was already defined, whatever its support, silences the warning: nothing is fitted, and
    mle returns an order of the candidates as if something was. *)
Theorem C74_defined_candidate_refuted : forall f d sample x, In f [Exponential; Gamma; Beta; HalfNormal] -> In x sample -> x < 0 ->
  supp d = (Fin 0, PInf) \/ supp d = (Fin 0, Fin 1) -> frozen d = true ->
  exists out, fit_all [(f, d)] sample out /\ out = [(d, PInf)] /\ warned out = false.
Proof.
  intros f d sample x Hf I N S F. exists [(d, PInf)]. split; [|split; [reflexivity|unfold warned; cbn; rewrite F; reflexivity]].
  constructor; [|constructor]. cbn [fst snd]. unfold fit_one, SampleModel.fit_one.
  destruct sample as [|y ys]; [destruct I|].
  assert (K : exists lo, np_min (y :: ys) = Ok lo) by (eexists; reflexivity). destruct K as (lo & K).
  assert (K' : exists up, np_max (y :: ys) = Ok up) by (eexists; reflexivity). destruct K' as (up & K').
  destruct (np_min_spec _ _ K) as [_ G]. specialize (G x I). rewrite K, K'. cbn [bind].
  assert (B : bounded_by_sample f = false) by (destruct Hf as [<-|[<-|[<-|[<-|[]]]]]; reflexivity). rewrite B.
  assert (X : xleb (Fin 0) (Fin lo) = false).
  { destruct (xleb (Fin 0) (Fin lo)) eqn:X; [|reflexivity]. apply xleb_fin in X. lra. }
  unfold check_endpoints_silent. destruct S as [->| ->]; rewrite X; reflexivity.
Qed.
End Mle.

(* ------------------------------------------------------------ cases *)
(** Three per cent too little mass between 0 and 2: reported; a quarter of a Poisson-like law: the mass of 1 and 2. *)
Example C74_mass_case : maxent_warnings false (fun x => match x with Fin r => Fin (r / 2) | _ => NaN end) (PyInt 0) (PyInt 1) (Fin 0.9) =
  [MassMissed (Fin 0.9) (Fin (1 / 2 + - (0 / 2)))].
Proof.
  unfold maxent_warnings, relative_error, computed_mass, number. cbn [andb app xsub xadd xneg xdiv]. rewrite Reqb_false by lra.
  cbn [xmul xabs xltb]. rewrite Rltb_true; [reflexivity|]. rewrite Rabs_left; lra.
Qed.
Example C74_discrete_case : computed_mass true (cdf_of (fun k => / 2 ^ (S k))) (Fin (INR 1)) (Fin (INR 2)) = Fin (1 / 4 + 1 / 8).
Proof. rewrite C74_discrete_mass by lia. f_equal. unfold mass_between, Rsum. cbn. lra. Qed.
Example C74_integers_case : python_number (PyInt 3) /\ python_number (PyFloat (Fin 2.5)) /\ ~ (integral (PyInt 3) /\ integral (PyFloat (Fin 2.5))).
Proof.
  split; [exact I|]. split; [exact I|]. intros [_ [z Z]]. cbn in Z. injection Z as Z.
  assert (IZR (5 - 2 * z) = 0) by (rewrite minus_IZR, mult_IZR; lra). apply eq_IZR in H. lia.
Qed.
(** Two targets, the second one missed. *)
Example C74_lines_case : exists w g, check_relative_error ["m"; "v"]%char [Fin 1; Fin 4] [Fin 1; Fin 5] 0.01 = Ok (Some [("v"%char, w, g)]) /\
  w = Fin 4 /\ g = Fin 5.
Proof.
  exists (Fin 4), (Fin 5). split; [|split; reflexivity]. rewrite check_same_length by reflexivity. cbn [combine filter]. unfold off. cbn [fst snd].
  assert (A : xltb (Fin 0.01) (match_error (Fin 1) (Fin 1)) = false).
  { apply match_error_ok; [lra|]. replace (1 - 1) with 0 by ring. rewrite Rabs_R0, Rabs_right; lra. }
  assert (B : xltb (Fin 0.01) (match_error (Fin 5) (Fin 4)) = true).
  { destruct (xltb (Fin 0.01) (match_error (Fin 5) (Fin 4))) eqn:X; [reflexivity|]. apply match_error_ok in X; [|lra].
    rewrite !Rabs_right in X by lra. lra. }
  rewrite A, B. reflexivity.
Qed.
(** A Normal and an Exponential that are not defined, for a sample with a negative value: one is compatible, one is not. *)
Example C74_mle_case : forall ptd_ig eg gam sort sk cm i0 i1 rs rice m s lp ls mn,
  let n := {| names := ["mu"; "sigma"]%string; params := []; attr := fun _ => None; supp := (NInf, PInf); frozen := false |} in
  let e := {| names := ["lam"]%string; params := []; attr := fun _ => None; supp := (Fin 0, PInf); frozen := false |} in
  let sample := [-1; 1; 2; 3; 5] in
  compatible sample (Normal, n) /\ ~ compatible sample (Exponential, e) /\
  exists out, fit_all ptd_ig eg gam sort sk cm i0 i1 rs rice m s lp ls mn [(Normal, n); (Exponential, e)] sample out /\ warned out = false.
Proof.
  intros. subst sample. split; [right; intros x _; split; reflexivity|]. split.
  - intros [H|H]; [cbn in H; intuition discriminate|]. destruct (H (-1) (or_introl eq_refl)) as [K _]. cbn [supp e snd fst] in K.
    apply xleb_fin in K. lra.
  - eexists. split.
    + constructor; [|constructor; [|constructor]]; cbn [fst snd]; unfold fit_one; cbn [np_min np_max bind bounded_by_sample].
      * cbn [n supp check_endpoints_silent xleb xltb xeqb andb orb]. cbn [fit_mle bind update normal_mle].
        unfold get_penalization. cbn [params List.length Z.of_nat Pos.of_succ_nat Pos.succ Z.eqb Z.add Z.sub Z.opp Z.pos_sub Pos.pred_double Pos.add bind]. reflexivity.
      * replace (fold_left Rmin [1; 2; 3; 5] (-1)) with (-1) by (cbn [fold_left]; rewrite (Rmin_left (-1) 1), (Rmin_left (-1) 2), (Rmin_left (-1) 3), (Rmin_left (-1) 5) by lra; reflexivity).
        unfold check_endpoints_silent. cbn [e supp]. 
        destruct (xleb (Fin 0) (Fin (-1))) eqn:K; [apply xleb_fin in K; lra|]. reflexivity.
    + reflexivity.
Qed.

Print Assumptions C74_discrete_mass.
Print Assumptions C74_maxent_mass.
Print Assumptions C74_maxent_integers.
Print Assumptions C74_numpy_integers_refuted.
Print Assumptions C74_nan_mass_refuted.
Print Assumptions C74_fractional_bound_refuted.
Print Assumptions C74_quartile.
Print Assumptions C74_quartile_exact.
Print Assumptions C74_quartile_shifted_refuted.
Print Assumptions C74_quartile_discrete_refuted.
Print Assumptions C74_match_lines.
Print Assumptions C74_match_silent.
Print Assumptions C74_match_not_finite.
Print Assumptions C74_match_quantiles_silent.
Print Assumptions C74_zero_target_refuted.
Print Assumptions C74_infinite_target_refuted.
Print Assumptions C74_repeated_letter_refuted.
Print Assumptions C74_mle_warning.
Print Assumptions C74_defined_candidate_refuted.
