(** C09: the alternative values an instance reports lead back to the same canonical parameters. *)
From Coq Require Import List Bool String Reals Lra Lia.
From Verif Require Import Base XR SpecialModel FamModel FamSpec FamProofs FamArith FamReadback.
Import ListNotations.
Open Scope R_scope.
Open Scope string_scope.

Definition rounds ptd (f : family) (P : list string) (v : string -> R) : Prop :=
  exists d1, construct ptd f (just (canonical f) v) = Ok d1 /\
    (forall k, In k P -> exists x, attr d1 k = Some (Fin x)) /\
    forall w, (forall k, In k P -> attr d1 k = Some (Fin (w k))) ->
      exists d2, construct ptd f (just P w) = Ok d2 /\
        forall k, In k (canonical f) -> attr d2 k = Some (Fin (round_trip f P k (v k))).

Ltac cbnR := cbn -[pydiv pyhalf from_precision xsub xpow xmul xadd xdiv xhalf to_precision np_int64 xeqb xlogit xexpit
         truncate Int_part xfloor xceil ig_to_mu ig_to_sigma beta_to_mu_sigma gamma_to_mu_sigma nb_to_p al_to_q
         beta_from_mu_sigma beta_from_mu_nu gamma_from_mu_sigma nb_from_n_p zinb_from_p_n al_from_q pymax pymin pow eps Rfloor Rceil].
Tactic Notation "cbnH" hyp(E) := cbn -[pydiv pyhalf from_precision xsub xpow xmul xadd xdiv xhalf to_precision np_int64 xeqb xlogit xexpit
         truncate Int_part xfloor xceil ig_to_mu ig_to_sigma beta_to_mu_sigma gamma_to_mu_sigma nb_to_p al_to_q
         beta_from_mu_sigma beta_from_mu_nu gamma_from_mu_sigma nb_from_n_p zinb_from_p_n al_from_q pymax pymin pow eps Rfloor Rceil] in E.
Ltac keys := cbn [In]; let k := fresh "k" in let H := fresh "H" in intros k H;
  repeat (destruct H as [<-|H]); try contradiction.

Ltac getw :=
  let w := fresh "w" in let Hw := fresh "Hw" in intros w Hw; cbn [In] in Hw;
  repeat match type of Hw with
  | forall k, (?a = k \/ _) -> _ =>
      let E := fresh "E" in
      pose proof (Hw a (or_introl eq_refl)) as E;
      let Hw' := fresh "Hw" in
      assert (Hw' := fun k (H : _) => Hw k (or_intror H)); clear Hw; rename Hw' into Hw
  end; clear Hw;
  repeat match goal with
  | E : attr _ ?a = Some (Fin (w ?a)) |- _ => cbnH E
  end.
Lemma some_fin_inj x y : Some (Fin x) = Some (Fin y) -> y = x.
Proof. congruence. Qed.
(** First construction, then finiteness of what it reports. *)
Ltac first_part up rw :=
  eexists; split; [ucons; cbnR; up tt; rw tt; cbnR; reflexivity|]; split;
  [keys; cbnR; rw tt; eexists; reflexivity|];
  getw;
  repeat match goal with
  | E : _ = Some (Fin (?w ?a)) |- _ => revert E
  end; cbnR; rw tt; intros;
  repeat match goal with
  | E : _ = Some (Fin (?w ?a)) |- _ => apply some_fin_inj in E
  end.
Ltac second_part up rw :=
  ucons; cbnR;
  repeat match goal with E : ?w _ = _ |- _ => rewrite !E; clear E end;
  rw tt; cbnR; up tt; rw tt; cbnR;
  eexists; split; [reflexivity|]; keys; cbnR; reflexivity.
Ltac roundtrip up rw := first_part up rw; second_part up rw.

Section RT.
Variable ptd : xr -> xr -> xr * xr.
Hypothesis ptd_ok : forall mu sigma, 0 < sigma -> ptd (Fin mu) (Fin sigma) = ig_from_mu_sigma (Fin mu) (Fin sigma).

Lemma rt_precision f P v :
  In f [HalfNormal; HalfStudentT; LogitNormal; Normal; SkewStudentT; SkewNormal; StudentT] ->
  In P (sets f) -> rounds ptd f P v.
Proof.
  cbn [In]. intros Hf HP. unfold rounds.
  assert (FP : from_precision (Fin (1 / (eps + v "sigma" ^ 2))) = Ok (Fin (sqrt (eps + v "sigma" ^ 2)))).
  { rewrite <- to_precision_fin. apply precision_round. }
  repeat (destruct Hf as [<-|Hf]); try contradiction; cbn [sets In] in HP;
    repeat (destruct HP as [<-|HP]); try contradiction;
    roundtrip ltac:(fun _ => idtac) ltac:(fun _ => rewrite ?to_precision_fin, ?FP).
Qed.

Lemma rt_al P v : In P (sets AsymmetricLaplace) -> 0 < v "kappa" -> rounds ptd AsymmetricLaplace P v.
Proof.
  intros HP HV. unfold rounds. cbn [sets In] in HP.
  assert (A : al_to_q (Fin (v "kappa")) = Fin (v "kappa" ^ 2 / (1 + v "kappa" ^ 2))) by apply al_to_q_fin.
  pose proof (al_kappa_back _ HV) as B. rewrite A in B.
  destruct HP as [<-|[<-|[]]];
    roundtrip ltac:(fun _ => idtac) ltac:(fun _ => rewrite ?A, ?B).
Qed.

Lemma rt_bernoulli P v : In P (sets Bernoulli) -> 0 < v "p" < 1 -> rounds ptd Bernoulli P v.
Proof.
  intros HP HV. unfold rounds. cbn [sets In] in HP.
  pose proof (logit_fin _ HV) as A. pose proof (expit_logit _ HV) as B. rewrite A in B.
  destruct HP as [<-|[<-|[]]];
    roundtrip ltac:(fun _ => idtac) ltac:(fun _ => rewrite ?A, ?B).
Qed.

Lemma rt_exponential P v : In P (sets Exponential) -> 0 < v "lam" -> rounds ptd Exponential P v.
Proof.
  intros HP HV. unfold rounds. cbn [sets In] in HP.
  assert (A : xdiv (Fin 1) (Fin (v "lam")) = Fin (1 / v "lam")) by (apply xdiv_fin; lra).
  assert (P1 : 0 < 1 / v "lam") by (apply Rdiv_lt_0_compat; lra).
  assert (B : pydiv (Fin 1) (Fin (1 / v "lam")) = Ok (Fin (v "lam"))).
  { rewrite pydiv_fin by lra. do 2 f_equal. field; lra. }
  destruct HP as [<-|[<-|[]]];
    roundtrip ltac:(fun _ => idtac) ltac:(fun _ => rewrite ?A, ?B).
Qed.

Lemma rt_beta P v : In P (sets Beta) -> 0 < v "alpha" -> 0 < v "beta" -> rounds ptd Beta P v.
Proof.
  intros HP Ha Hb. unfold rounds. cbn [sets In] in HP.
  set (a := v "alpha") in *. set (b := v "beta") in *.
  set (mu := a / (a + b)). set (sg := sqrt (a * b) / (a + b) / sqrt (a + b + 1)).
  assert (C : forall ns : list string, True) by auto. clear C.
  pose proof (beta_to_mu_sigma_fin a b Ha Hb) as A. fold mu sg in A.
  pose proof (beta_nu_x a b Ha Hb) as N. fold mu sg in N.
  pose proof (beta_nu a b Ha Hb) as N'. fold mu sg in N'.
  assert (Hsg : 0 < sg) by (apply beta_sigma_pos; auto).
  assert (M1 : mu * (a + b) = a) by (unfold mu; field; lra).
  assert (M2 : (1 - mu) * (a + b) = b) by (unfold mu; field; lra).
  assert (B : beta_from_mu_sigma (Fin mu) (Fin sg) = Ok (Fin a, Fin b)).
  { rewrite beta_from_mu_sigma_fin by exact Hsg. cbv zeta. rewrite N', M1, M2. reflexivity. }
  assert (B' : beta_from_mu_nu (Fin mu) (Fin (a + b)) = (Fin a, Fin b)).
  { unfold beta_from_mu_nu. rewrite xsub_fin, !xmul_fin, M1, M2. reflexivity. }
  destruct HP as [<-|[<-|[<-|[]]]];
    roundtrip ltac:(fun _ => unfold beta_update; try fold a b) ltac:(fun _ => rewrite ?B, ?B', ?A, ?N).
Qed.

Lemma rt_gamma P v : In P (sets Gamma) -> 0 < v "alpha" -> 0 < v "beta" -> rounds ptd Gamma P v.
Proof.
  intros HP Ha Hb. unfold rounds. cbn [sets In] in HP.
  set (a := v "alpha") in *. set (b := v "beta") in *.
  pose proof (gamma_to_mu_sigma_fin a b ltac:(lra) ltac:(lra)) as A.
  pose proof (sqrt_pos_strict a Ha) as Sa.
  assert (Hs : 0 < sqrt a / b) by (apply Rdiv_lt_0_compat; lra).
  assert (S2 : sqrt a ^ 2 = a) by (apply sqrt_pow2_eq; lra).
  assert (B : gamma_from_mu_sigma (Fin (a / b)) (Fin (sqrt a / b)) = Ok (Fin a, Fin b)).
  { rewrite gamma_from_mu_sigma_fin by exact Hs. do 3 f_equal.
    - replace ((sqrt a / b) ^ 2) with (sqrt a ^ 2 / b ^ 2) by (field; lra). rewrite S2. field; lra.
    - replace ((sqrt a / b) ^ 2) with (sqrt a ^ 2 / b ^ 2) by (field; lra). rewrite S2. field; lra. }
  destruct HP as [<-|[<-|[]]];
    roundtrip ltac:(fun _ => unfold gamma_update; try fold a b) ltac:(fun _ => rewrite ?B, ?A).
Qed.

Lemma rt_inversegamma P v : In P (sets InverseGamma) -> 2 < v "alpha" -> 0 < v "beta" -> rounds ptd InverseGamma P v.
Proof.
  intros HP Ha Hb. unfold rounds. cbn [sets In] in HP.
  set (a := v "alpha") in *. set (b := v "beta") in *.
  pose proof (ig_to_mu_fin a b ltac:(lra)) as A. pose proof (ig_to_sigma_fin a b Ha) as A'.
  pose proof (sqrt_pos_strict (a - 2) ltac:(lra)) as Sa.
  assert (Hs : 0 < b / ((a - 1) * sqrt (a - 2))).
  { apply Rdiv_lt_0_compat; [lra|]. apply Rmult_lt_0_compat; lra. }
  assert (S2 : sqrt (a - 2) ^ 2 = a - 2) by (apply sqrt_pow2_eq; lra).
  assert (B : ptd (Fin (b / (a - 1))) (Fin (b / ((a - 1) * sqrt (a - 2)))) = (Fin a, Fin b)).
  { rewrite ptd_ok, ig_from_mu_sigma_fin by exact Hs.
    replace ((b / ((a - 1) * sqrt (a - 2))) ^ 2) with (b ^ 2 / ((a - 1) ^ 2 * sqrt (a - 2) ^ 2)) by (field; lra).
    rewrite S2. do 2 f_equal; field; lra. }
  destruct HP as [<-|[<-|[]]];
    roundtrip ltac:(fun _ => unfold inversegamma_update; try fold a b) ltac:(fun _ => rewrite ?B, ?A, ?A').
Qed.

Lemma rt_nb P v : In P (sets NegativeBinomial) -> 0 < v "mu" -> 0 < v "alpha" -> rounds ptd NegativeBinomial P v.
Proof.
  intros HP Hm Ha. unfold rounds. cbn [sets In] in HP.
  set (a := v "alpha") in *. set (m := v "mu") in *.
  assert (Hp : 0 < a / (m + a)) by (apply Rdiv_lt_0_compat; lra).
  assert (A : nb_to_p (Fin m) (Fin a) = Fin (a / (m + a))).
  { unfold nb_to_p. rewrite xadd_fin, xdiv_fin by lra. reflexivity. }
  assert (B : nb_from_n_p (Fin a) (Fin (a / (m + a))) = Ok (Fin m, Fin a)).
  { unfold nb_from_n_p. rewrite pydiv_fin by lra. cbn [bind]. rewrite xsub_fin, xmul_fin.
    do 3 f_equal. field; lra. }
  destruct HP as [<-|[<-|[]]];
    roundtrip ltac:(fun _ => unfold nb_update; try fold a m) ltac:(fun _ => rewrite ?B, ?A).
Qed.

Lemma rt_zinb P v : In P (sets ZeroInflatedNegativeBinomial) -> 0 < v "mu" -> 0 < v "alpha" ->
  rounds ptd ZeroInflatedNegativeBinomial P v.
Proof.
  intros HP Hm Ha. unfold rounds. cbn [sets In] in HP.
  set (a := v "alpha") in *. set (m := v "mu") in *.
  assert (Hp : 0 < a / (m + a)) by (apply Rdiv_lt_0_compat; lra).
  assert (A : xdiv (Fin a) (xadd (Fin m) (Fin a)) = Fin (a / (m + a))).
  { rewrite xadd_fin, xdiv_fin by lra. reflexivity. }
  assert (B : zinb_from_p_n (Fin (a / (m + a))) (Fin a) = Ok (Fin m, Fin a)).
  { unfold zinb_from_p_n. rewrite pydiv_fin by lra. cbn [bind]. rewrite xsub_fin, xmul_fin.
    do 3 f_equal. field; lra. }
  destruct HP as [<-|[<-|[]]];
    roundtrip ltac:(fun _ => unfold zinb_update; try fold a m) ltac:(fun _ => rewrite ?B, ?A).
Qed.

Lemma rt_rice P v : In P (sets Rice) -> 0 < v "nu" -> 0 < v "sigma" -> rounds ptd Rice P v.
Proof.
  intros HP Hm Ha. unfold rounds. cbn [sets In] in HP.
  set (n := v "nu") in *. set (s := v "sigma") in *.
  assert (A : xdiv (Fin n) (Fin s) = Fin (n / s)) by (apply xdiv_fin; lra).
  assert (B : xmul (Fin (n / s)) (Fin s) = Fin n) by (rewrite xmul_fin; f_equal; field; lra).
  destruct HP as [<-|[<-|[]]];
    roundtrip ltac:(fun _ => unfold rice_update; try fold n s) ltac:(fun _ => rewrite ?B, ?A).
Qed.

Lemma rt_wald P v : In P (sets Wald) -> 0 < v "mu" -> 0 < v "lam" -> rounds ptd Wald P v.
Proof.
  intros HP Hm Hl. unfold rounds. cbn [sets In] in HP.
  set (m := v "mu") in *. set (l := v "lam") in *.
  assert (Hp : 0 < l / m) by (apply Rdiv_lt_0_compat; lra).
  assert (A : xdiv (Fin l) (Fin m) = Fin (l / m)) by (apply xdiv_fin; lra).
  assert (B : xmul (Fin m) (Fin (l / m)) = Fin l) by (rewrite xmul_fin; f_equal; field; lra).
  assert (B' : pydiv (Fin l) (Fin (l / m)) = Ok (Fin m)) by (rewrite pydiv_fin by lra; do 2 f_equal; field; lra).
  pose proof (xeqb_zero m Hm) as Z1. pose proof (xeqb_zero l Hl) as Z2.
  destruct HP as [<-|[<-|[<-|[]]]];
    roundtrip ltac:(fun _ => unfold wald_update; try fold m l) ltac:(fun _ => rewrite ?Z1, ?Z2; cbnR; rewrite ?B, ?B', ?A).
Qed.

Lemma all_round f P v : has_alternatives f -> In P (sets f) -> valid f (canonical f) v -> rounds ptd f P v.
Proof.
  unfold has_alternatives. intros Halt HP HV. destruct f; simpl in Halt; try lia; cbn in HV;
    match goal with
    | |- rounds _ AsymmetricLaplace _ _ => apply rt_al; tauto
    | |- rounds _ Bernoulli _ _ => apply rt_bernoulli; tauto
    | |- rounds _ Beta _ _ => apply rt_beta; tauto
    | |- rounds _ Exponential _ _ => apply rt_exponential; tauto
    | |- rounds _ Gamma _ _ => apply rt_gamma; tauto
    | |- rounds _ InverseGamma _ _ => apply rt_inversegamma; tauto
    | |- rounds _ NegativeBinomial _ _ => apply rt_nb; tauto
    | |- rounds _ ZeroInflatedNegativeBinomial _ _ => apply rt_zinb; tauto
    | |- rounds _ Rice _ _ => apply rt_rice; tauto
    | |- rounds _ Wald _ _ => apply rt_wald; tauto
    | _ => apply rt_precision; [cbn [In]; tauto | exact HP]
    end.
Qed.
End RT.
