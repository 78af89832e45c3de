(** C18-C19: mixtures; C48: the generic quantile function. *)
From Coq Require Import List Bool ZArith Reals Lra Lia Permutation.
From Verif Require Import Base RLists XR SpecialModel LawModel LawSpec LawProofs LawProps ModModel ModSpec TruncProofs TruncProps
  CensProps MixModel MixSpec.
Import ListNotations.
Open Scope R_scope.

(* ------------------------------------------------------------------ building *)
Lemma np_min_list_spec l : l <> [] -> Forall number l -> exists x, np_min_list l = Ok x /\ In x l /\ forall y, In y l -> xle x y.
Proof.
  destruct l as [|a r]; [congruence|]. intros _ H. cbn. inversion H as [|? ? Na Hr]; subst. clear H.
  revert a Na. induction r as [|b r IH]; intros a Na; cbn.
  - exists a. split; [reflexivity|]. split; [auto|]. intros y [<-|[]]. apply xle_refl; auto.
  - inversion Hr as [|? ? Nb Hr']; subst. rewrite np_minimum_xmin by auto.
    destruct (IH Hr' (xmin a b) (xmin_number _ _ Na Nb)) as (x & E & I & M). exists x. split; [exact E|].
    destruct (xmin_cases a b Na Nb) as [[A B]|[A B]]; rewrite B in *.
    + split; [destruct I as [->|I]; auto|]. intros y [<-|[<-|Hy]].
      * apply M; auto. * eapply xle_trans; [apply M; left; reflexivity|exact A]. * apply M; auto.
    + split; [destruct I as [->|I]; auto|]. intros y [<-|[<-|Hy]].
      * eapply xle_trans; [apply M; left; reflexivity|apply xlt_le, A]. * apply M; auto. * apply M; auto.
Qed.
Lemma np_max_list_spec l : l <> [] -> Forall number l -> exists x, np_max_list l = Ok x /\ In x l /\ forall y, In y l -> xle y x.
Proof.
  destruct l as [|a r]; [congruence|]. intros _ H. cbn. inversion H as [|? ? Na Hr]; subst. clear H.
  revert a Na. induction r as [|b r IH]; intros a Na; cbn.
  - exists a. split; [reflexivity|]. split; [auto|]. intros y [<-|[]]. apply xle_refl; auto.
  - inversion Hr as [|? ? Nb Hr']; subst. rewrite np_maximum_xmax by auto.
    destruct (IH Hr' (xmax a b) (xmax_number _ _ Na Nb)) as (x & E & I & M). exists x. split; [exact E|].
    destruct (xmax_cases a b Na Nb) as [[A B]|[A B]]; rewrite B in *.
    + split; [destruct I as [->|I]; auto|]. intros y [<-|[<-|Hy]].
      * eapply xle_trans; [exact A|apply M; left; reflexivity]. * apply M; auto. * apply M; auto.
    + split; [destruct I as [->|I]; auto|]. intros y [<-|[<-|Hy]].
      * apply M; auto. * eapply xle_trans; [apply xlt_le, A|apply M; left; reflexivity]. * apply M; auto.
Qed.

Lemma mixable_nonempty k ps : mixable k ps -> ps <> [].
Proof. intros [_ H] ->. unfold Rsum in H. cbn in H. lra. Qed.

Lemma make_mixture_ok k ps : mixable k ps -> exists m, mixture_of ps m /\ mx_kind m = k /\ mx_frozen m = true /\
  mx_comps m = map p_comp ps /\ mx_weights m = Some (map (fun p => Fin (share ps p)) ps) /\
  (forall p, In p ps -> xle (fst (mx_supp m)) (fst (m_supp (comp (p_comp p)))) /\ xle (snd (m_supp (comp (p_comp p)))) (snd (mx_supp m))) /\
  (exists p, In p ps /\ fst (mx_supp m) = fst (m_supp (comp (p_comp p)))) /\
  (exists p, In p ps /\ snd (mx_supp m) = snd (m_supp (comp (p_comp p)))).
Proof.
  intros H. pose proof (mixable_nonempty k ps H) as NE. destruct H as [H W]. unfold mixture_of, make_mixture.
  assert (EK : (if forallb (fun c => kind_eqb (kind_of (comp c)) Discrete) (map p_comp ps) then Ok Discrete
           else if forallb (fun c => kind_eqb (kind_of (comp c)) Continuous) (map p_comp ps) then Ok Continuous
           else Err ValueError) = Ok k).
  { assert (A : forall k', forallb (fun c => kind_eqb (kind_of (comp c)) k') (map p_comp ps) = kind_eqb k k').
    { intro k'. destruct (kind_eqb k k') eqn:E.
      - apply forallb_forall. intros c Hc. apply in_map_iff in Hc. destruct Hc as (p & <- & Hp).
        destruct (H p Hp) as (_ & -> & _). exact E.
      - destruct ps as [|p ps]; [congruence|]. cbn. destruct (H p (or_introl eq_refl)) as (_ & -> & _). rewrite E. reflexivity. }
    rewrite !A. destruct k; reflexivity. }
  rewrite EK. cbn [bind].
  destruct (np_min_list_spec (map (fun c => fst (m_supp (comp c))) (map p_comp ps))) as (lo & El & Il & Ml).
  { destruct ps; [congruence|discriminate]. }
  { apply Forall_forall. intros x Hx. rewrite map_map in Hx. apply in_map_iff in Hx. destruct Hx as (p & <- & Hp). apply (H p Hp). }
  destruct (np_max_list_spec (map (fun c => snd (m_supp (comp c))) (map p_comp ps))) as (up & Eu & Iu & Mu).
  { destruct ps; [congruence|discriminate]. }
  { apply Forall_forall. intros x Hx. rewrite map_map in Hx. apply in_map_iff in Hx. destruct Hx as (p & <- & Hp). apply (H p Hp). }
  rewrite El, Eu. cbn [bind].
  assert (Fr : forallb comp_frozen (map p_comp ps) = true).
  { apply forallb_forall. intros c Hc. apply in_map_iff in Hc. destruct Hc as (p & <- & Hp). apply (H p Hp). }
  rewrite Fr. cbn [andb]. eexists. split; [reflexivity|]. cbn.
  refine (conj eq_refl (conj eq_refl (conj eq_refl (conj _ (conj _ (conj _ _)))))).
  - f_equal. rewrite map_map. apply map_ext. intro p. rewrite Reqb_false by lra. reflexivity.
  - intros p Hp. split; [apply Ml|apply Mu]; rewrite map_map; apply in_map_iff; exists p; auto.
  - rewrite map_map in Il. apply in_map_iff in Il. destruct Il as (p & E & Hp). exists p. auto.
  - rewrite map_map in Iu. apply in_map_iff in Iu. destruct Iu as (p & E & Hp). exists p. auto.
Qed.
Lemma xsum_fin l : xsum (map Fin l) = Fin (Rsum l).
Proof. induction l as [|a l IH]; cbn; [reflexivity|]. unfold xsum in *. rewrite IH. reflexivity. Qed.

Section Mix.
Context {k : kind} {ps : list part} {m : mixture} (H : mixable k ps) (M : mixture_of ps m).

Lemma M_zipped : zipped m = Ok (map (fun p => (p_comp p, Fin (share ps p))) ps).
Proof.
  destruct (make_mixture_ok k ps H) as (m' & E & _ & _ & Ec & Ew & _). unfold mixture_of in *. rewrite M in E. injection E as ->.
  unfold zipped. rewrite Ew, Ec. rewrite combine_map2. reflexivity.
Qed.
Lemma shares : Rsum (map (share ps) ps) = 1 /\ forall p, In p ps -> 0 <= share ps p.
Proof.
  destruct H as [H1 W]. split.
  - unfold share. rewrite Rsum_map_div. field. lra.
  - intros p Hp. unfold share. apply Rmult_le_pos; [apply (H1 p Hp)|left; apply Rinv_0_lt_compat; auto].
Qed.
Lemma weighted_sum_value f g : (forall p, In p ps -> f (p_comp p) = Fin (g p)) -> weighted_sum m f = Ok (Fin (average ps g)).
Proof.
  intro E. unfold weighted_sum. rewrite M_zipped. cbn [bind]. f_equal. rewrite map_map. cbn [fst snd].
  transitivity (xsum (map Fin (map (fun p => share ps p * g p) ps))); [|apply xsum_fin].
  f_equal. rewrite map_map. apply map_ext_in. intros p Hp. rewrite (E p Hp). cbn. f_equal. ring.
Qed.
Lemma average_plus f g : average ps (fun p => f p + g p) = average ps f + average ps g.
Proof. unfold average. rewrite <- Rsum_map_plus. apply Rsum_map_ext. intros; ring. Qed.
Lemma average_minus f g : average ps (fun p => f p - g p) = average ps f - average ps g.
Proof. unfold average. rewrite <- Rsum_map_minus. apply Rsum_map_ext. intros; ring. Qed.
Lemma average_scal c f : average ps (fun p => c * f p) = c * average ps f.
Proof. unfold average. rewrite <- Rsum_map_scal. apply Rsum_map_ext. intros; ring. Qed.
Lemma average_const c : average ps (fun _ => c) = c.
Proof. unfold average. rewrite Rsum_map_scal_r. rewrite (proj1 shares). ring. Qed.
Lemma average_le f g : (forall p, In p ps -> f p <= g p) -> average ps f <= average ps g.
Proof. intro E. apply Rsum_map_le. intros p Hp. apply Rmult_le_compat_l; [apply shares; auto|auto]. Qed.
Lemma average_ext f g : (forall p, In p ps -> f p = g p) -> average ps f = average ps g.
Proof. intro E. apply Rsum_map_ext. intros p Hp. rewrite E; auto. Qed.

End Mix.

Lemma lower_point (l : list part) q : 0 < q -> (forall p, In p l -> lawful (comp (p_comp p)) (p_F p)) ->
  exists r, forall p, In p l -> p_F p (Fin r) < q.
Proof.
  intros Hq H. induction l as [|p l IH]; [exists 0; intros p []|].
  destruct IH as [r Hr]; [intros; apply H; right; auto|].
  destruct (l_tight_lo _ _ (H p (or_introl eq_refl)) q Hq) as [r' Hr'].
  exists (Rmin r r'). intros p' [<-|Hp].
  - eapply Rle_lt_trans; [|exact Hr']. apply (l_mono _ _ (H p (or_introl eq_refl))), xle_fin, Rmin_r.
  - eapply Rle_lt_trans; [|apply Hr; exact Hp]. apply (l_mono _ _ (H p' (or_intror Hp))), xle_fin, Rmin_l.
Qed.
Lemma upper_point (l : list part) q : q < 1 -> (forall p, In p l -> lawful (comp (p_comp p)) (p_F p)) ->
  exists r, forall p, In p l -> q <= p_F p (Fin r).
Proof.
  intros Hq H. induction l as [|p l IH]; [exists 0; intros p []|].
  destruct IH as [r Hr]; [intros; apply H; right; auto|].
  destruct (l_tight_hi _ _ (H p (or_introl eq_refl)) q Hq) as [r' Hr'].
  exists (Rmax r r'). intros p' [<-|Hp].
  - eapply Rle_trans; [exact Hr'|]. apply (l_mono _ _ (H p (or_introl eq_refl))), xle_fin, Rmax_r.
  - eapply Rle_trans; [apply Hr; exact Hp|]. apply (l_mono _ _ (H p' (or_intror Hp))), xle_fin, Rmax_l.
Qed.

(* ------------------------------------------------------------------ C18 *)
(** The weights in force are non negative and add up to one, whatever (non negative, not all zero) weights were given;
    the kind is that of the components and the support the smallest interval that contains theirs. *)
Theorem C18_weights_and_support : forall k ps, mixable k ps -> exists m ws, mixture_of ps m /\
  mx_kind m = k /\ mx_weights m = Some (map Fin ws) /\ length ws = length ps /\ Rsum ws = 1 /\ Forall (fun w => 0 <= w) ws /\
  (forall i w p, nth_error ws i = Some w -> nth_error ps i = Some p -> w = p_weight p / Rsum (map p_weight ps)) /\
  (forall lo up, (lo, up) = mx_supp m ->
     (forall p, In p ps -> xle lo (fst (m_supp (comp (p_comp p)))) /\ xle (snd (m_supp (comp (p_comp p)))) up) /\
     (exists p, In p ps /\ lo = fst (m_supp (comp (p_comp p)))) /\ (exists p, In p ps /\ up = snd (m_supp (comp (p_comp p))))).
Proof.
  intros k ps H. destruct (make_mixture_ok k ps H) as (m & M & K & _ & _ & Ew & S1 & S2 & S3).
  exists m, (map (share ps) ps). split; [exact M|]. split; [exact K|]. split; [rewrite map_map; exact Ew|].
  split; [apply map_length|]. split; [apply (shares H)|]. split.
  { apply Forall_forall. intros w Hw. apply in_map_iff in Hw. destruct Hw as (p & <- & Hp). apply (shares H); auto. }
  split.
  - intros i w p Hw Hp. rewrite nth_error_map, Hp in Hw. cbn in Hw. injection Hw as <-. reflexivity.
  - intros lo up E. rewrite <- E in *. cbn in *. auto.
Qed.
(** A mixture of nothing is refused with ValueError. *)
Theorem C18_empty_rejected : forall weights, make_mixture [] weights = Err ValueError.
Proof. reflexivity. Qed.
(** A mixture made without weights can be made, but has no density, cumulative probability or moments: asking for them
    raises TypeError. *)
Theorem C18_without_weights : forall ds m x, make_mixture ds None = Ok m ->
  mx_frozen m = false /\ mix_pdf m x = Err TypeError /\ mix_cdf m x = Err TypeError /\ mix_logpdf m x = Err TypeError /\
  mix_mean m = Err TypeError /\ mix_var m = Err TypeError.
Proof.
  intros ds m x H. unfold make_mixture in H.
  destruct (if forallb _ ds then _ else _) as [k|]; [|discriminate]. cbn [bind] in H.
  destruct (np_min_list _) as [lo|]; [|discriminate]. destruct (np_max_list _) as [up|]; [|discriminate]. cbn [bind] in H.
  injection H as <-. cbn [mx_frozen]. rewrite andb_false_r. repeat split.
Qed.
(** Components of different kinds are rejected. *)
Theorem C18_mixed_kinds_rejected : forall ds ws a b, In a ds -> In b ds -> kind_of (comp a) <> kind_of (comp b) ->
  make_mixture ds ws = Err ValueError.
Proof.
  intros ds ws a b Ha Hb Hne. unfold make_mixture.
  assert (E : forall k, forallb (fun c => kind_eqb (kind_of (comp c)) k) ds = false).
  { intro k. destruct (forallb _ ds) eqn:E; [|reflexivity]. rewrite forallb_forall in E.
    pose proof (E a Ha) as E1. pose proof (E b Hb) as E2. exfalso. apply Hne.
    destruct (kind_of (comp a)), (kind_of (comp b)), k; try reflexivity; discriminate. }
  rewrite !E. reflexivity.
Qed.
(** cdf is the distribution function of the two-stage experiment, and that is a distribution function. *)
Theorem C18_cdf : forall k ps m, mixable k ps -> mixture_of ps m ->
  (forall x, number x -> mix_cdf m x = Ok (Fin (mixture_law ps x))) /\ distribution_function (mixture_law ps).
Proof.
  intros k ps m H M. pose proof H as [H1 _]. split; [|split; [|split; [|split; [|split]]]].
  - intros x Nx. apply (weighted_sum_value H M). intros p Hp. apply (l_cdf _ _ (proj1 (H1 p Hp))); auto.
  - intros x y Hxy. apply (average_le H). intros p Hp. apply (l_mono _ _ (proj1 (H1 p Hp))); auto.
  - unfold mixture_law. rewrite (average_ext _ (fun _ => 0)); [apply (average_const H)|]. intros p Hp. apply (l_lo _ _ (proj1 (H1 p Hp))).
  - unfold mixture_law. rewrite (average_ext _ (fun _ => 1)); [apply (average_const H)|]. intros p Hp. apply (l_hi _ _ (proj1 (H1 p Hp))).
  - intros q Hq. destruct (lower_point ps (q / 2)) as [r Hr]; [lra|intros; apply H1; auto|]. exists r.
    apply Rle_lt_trans with (q / 2); [|lra]. rewrite <- (average_const H (q / 2)). apply (average_le H). intros p Hp. left. auto.
  - intros q Hq. destruct (upper_point ps q Hq) as [r Hr]; [intros; apply H1; auto|]. exists r.
    rewrite <- (average_const H q). apply (average_le H). auto.
Qed.
(** Discrete: pdf(z) is the probability of z; the probabilities of a, ..., b are non negative and add up to the increment
    of the cdf, so to one when the law gives no mass outside. *)
Theorem C18_pmf : forall ps m, mixable Discrete ps -> mixture_of ps m ->
  (forall z, mix_pdf m (Fin (IZR z)) = Ok (Fin (mixture_law ps (Fin (IZR z)) - mixture_law ps (Fin (IZR z - 1))))) /\
  (forall r, mixture_law ps (Fin r) = mixture_law ps (Fin (Rfloor r))).
Proof.
  intros ps m H M. pose proof H as [H1 _]. split.
  - intro z. unfold mix_pdf. rewrite (weighted_sum_value H M _ (fun p => p_F p (Fin (IZR z)) - p_F p (Fin (IZR z - 1)))).
    + unfold mixture_law. rewrite average_minus. reflexivity.
    + intros p Hp. destruct (H1 p Hp) as (L & K & _). apply (l_disc _ _ L K).
  - intro r. apply average_ext. intros p Hp. destruct (H1 p Hp) as (L & K & _). apply (l_disc _ _ L K).
Qed.
Theorem C18_pmf_sums : forall ps m a b, mixable Discrete ps -> mixture_of ps m -> (a <= b)%Z ->
  exists qs, map (fun z => mix_pdf m (Fin (IZR z))) (arange a (b + 1)) = map (fun q => Ok (Fin q)) qs /\
    Forall (fun q => 0 <= q) qs /\ Rsum qs = mixture_law ps (Fin (IZR b)) - mixture_law ps (Fin (IZR a - 1)) /\
    ((forall p, In p ps -> values_in (p_F p) a b) -> Rsum qs = 1).
Proof.
  intros ps m a b H M Hab. destruct (C18_pmf ps m H M) as [P _]. set (G := mixture_law ps) in *.
  exists (map (fun z => G (Fin (IZR z)) - G (Fin (IZR z - 1))) (arange a (b + 1))).
  assert (S : Rsum (map (fun z => G (Fin (IZR z)) - G (Fin (IZR z - 1))) (arange a (b + 1))) = G (Fin (IZR b)) - G (Fin (IZR a - 1))).
  { etransitivity; [apply (telescope G a (b + 1)); lia|]. rewrite plus_IZR. replace (IZR b + 1 - 1) with (IZR b) by ring. reflexivity. }
  split; [rewrite map_map; apply map_ext; exact P|]. split; [|split; [exact S|]].
  - apply Forall_forall. intros q Hq. apply in_map_iff in Hq. destruct Hq as (z & <- & _).
    destruct (C18_cdf _ _ _ H M) as [_ [Mo _]]. assert (G (Fin (IZR z - 1)) <= G (Fin (IZR z))) by (apply Mo, xle_fin; lra). lra.
  - intro V. rewrite S. unfold G, mixture_law.
    rewrite (average_ext _ (fun _ => 1)), (average_ext (fun p => p_F p (Fin (IZR a - 1))) (fun _ => 0)), !(average_const H); [ring| |];
      intros p Hp; apply (V p Hp).
Qed.
(** Continuous: where the component cdfs have the derivatives reported by their pdfs, so has the mixture. *)
Theorem C18_pdf_is_derivative : forall k ps m x (f : part -> R), mixable k ps -> mixture_of ps m ->
  (forall p, In p ps -> m_pdf (comp (p_comp p)) (Fin x) = Fin (f p) /\ derivable_pt_lim (fun r => p_F p (Fin r)) x (f p)) ->
  exists g, mix_pdf m (Fin x) = Ok (Fin g) /\ derivable_pt_lim (fun r => mixture_law ps (Fin r)) x g.
Proof.
  intros k ps m x f H M D. exists (average ps f). split; [apply (weighted_sum_value H M); intros p Hp; apply D; auto|].
  unfold mixture_law, average. generalize (share ps). intro sh. clear H M. induction ps as [|p l IH].
  - apply derivable_pt_lim_const.
  - assert (E := derivable_pt_lim_plus (fun r => sh p * p_F p (Fin r)) (fun r => Rsum (map (fun p => sh p * p_F p (Fin r)) l)) x
      (sh p * f p) (Rsum (map (fun p => sh p * f p) l))). apply E.
    + apply (derivable_pt_lim_scal (fun r => p_F p (Fin r))), D. left; auto.
    + apply IH. intros; apply D; right; auto.
Qed.
(** logpdf is the logarithm of pdf. *)
Lemma fold_max_spec l : (forall a, In a l -> number a /\ a <> PInf) ->
  let top := fold_right np_maximum NInf l in
  number top /\ top <> PInf /\ (top = NInf -> forall a, In a l -> a = NInf).
Proof.
  induction l as [|a l IH]; intro H; cbn [fold_right].
  - split; [auto|]. split; [discriminate|]. intros _ a [].
  - destruct IH as (N & P & Z); [intros; apply H; right; auto|]. cbv zeta in *. destruct (H a (or_introl eq_refl)) as [Na Pa].
    rewrite np_maximum_xmax by auto. destruct (xmax_cases a (fold_right np_maximum NInf l) Na N) as [[A ->]|[A ->]].
    + split; [auto|]. split; [auto|]. intro E. intros b [<-|Hb]; [|apply Z; auto]. rewrite E in A.
      apply xle_antisym; auto. apply xle_ninf; auto.
    + split; [auto|]. split; [auto|]. intro E. rewrite E in A. exfalso. destruct (fold_right np_maximum NInf l); try discriminate A.
Qed.
Lemma logsumexp_value l (g : xr -> R) : (forall a, In a l -> number a /\ a <> PInf) ->
  (forall a, In a l -> xexp a = Fin (g a)) -> logsumexp l = xlog (Fin (Rsum (map g l))).
Proof.
  intros H G. destruct (fold_max_spec l H) as (N & P & Z). unfold logsumexp. set (top := fold_right np_maximum NInf l) in *.
  assert (T : exists t, (if xisfinite top then top else Fin 0) = Fin t) by (destruct top; cbn; eauto). destruct T as [t ->].
  assert (E : map (fun a => xexp (xsub a (Fin t))) l = map Fin (map (fun a => exp (- t) * g a) l)).
  { rewrite map_map. apply map_ext_in. intros a Ha. specialize (G a Ha). destruct (H a Ha) as [Na Pa].
    destruct a as [r| | |]; cbn in *.
    - injection G as <-. rewrite <- exp_plus. do 2 f_equal. ring.
    - congruence.
    - injection G as <-. f_equal. ring.
    - exfalso. apply Na. reflexivity. }
  rewrite E, xsum_fin, Rsum_map_scal. set (s := Rsum (map g l)).
  assert (S : 0 <= s).
  { apply Rsum_map_nonneg. intros a Ha. specialize (G a Ha). destruct (H a Ha) as [Na Pa]. destruct a; cbn in G; try congruence.
    - injection G as <-. left. apply exp_pos. - injection G as <-. lra. }
  pose proof (exp_pos (- t)). cbn. destruct (Rltb_spec 0 s) as [Ps|Ps].
  - rewrite Rltb_true by (apply Rmult_lt_0_compat; auto). cbn. f_equal. rewrite ln_mult, ln_exp by auto. ring.
  - assert (s = 0) as -> by lra. rewrite Rmult_0_r, Rltb_false, !Reqb_refl by lra. reflexivity.
Qed.
Theorem C18_logpdf : forall k ps m x (f : part -> R), mixable k ps -> mixture_of ps m -> number x ->
  (forall p, In p ps -> m_pdf (comp (p_comp p)) x = Fin (f p) /\ 0 <= f p) ->
  exists g, mix_pdf m x = Ok (Fin g) /\ mix_logpdf m x = Ok (xlog (Fin g)).
Proof.
  intros k ps m x f H M Nx Hf. pose proof H as [H1 _]. exists (average ps f).
  split; [apply (weighted_sum_value H M); intros p Hp; apply Hf; auto|].
  unfold mix_logpdf. rewrite (M_zipped H M). cbn [bind]. f_equal. rewrite map_map. cbn [fst snd].
  assert (V : forall p, In p ps -> xexp (xadd (xlog (Fin (share ps p))) (m_logpdf (comp (p_comp p)) x)) = Fin (share ps p * f p) /\
     number (xadd (xlog (Fin (share ps p))) (m_logpdf (comp (p_comp p)) x)) /\ xadd (xlog (Fin (share ps p))) (m_logpdf (comp (p_comp p)) x) <> PInf).
  { intros p Hp. destruct (Hf p Hp) as [Ef Pf]. pose proof (proj2 (shares H) p Hp) as Ps.
    rewrite (l_log _ _ (proj1 (H1 p Hp))), Ef by auto. cbn.
    destruct (Rltb_spec 0 (share ps p)) as [A|A]; [|assert (share ps p = 0) as -> by lra; rewrite Reqb_refl];
    (destruct (Rltb_spec 0 (f p)) as [B|B]; [|assert (f p = 0) as -> by lra; rewrite Reqb_refl]); cbn.
    - split; [|split; [auto|discriminate]]. rewrite exp_plus, !exp_ln by auto. reflexivity.
    - split; [f_equal; ring|split; [auto|discriminate]].
    - split; [f_equal; ring|split; [auto|discriminate]].
    - split; [f_equal; ring|split; [auto|discriminate]]. }
  rewrite (logsumexp_value _ (fun a => match xexp a with Fin r => r | _ => 0 end)).
  - do 2 f_equal. rewrite map_map. unfold average. apply Rsum_map_ext. intros p Hp. rewrite (proj1 (V p Hp)). reflexivity.
  - intros a Ha. apply in_map_iff in Ha. destruct Ha as (p & <- & Hp). apply (V p Hp).
  - intros a Ha. apply in_map_iff in Ha. destruct Ha as (p & <- & Hp). rewrite (proj1 (V p Hp)). reflexivity.
Qed.
(** mean is the average of the means; var obeys the law of total variance: mean of the variances plus variance of the
    means; so it is never negative. *)
Theorem C18_mean_and_variance : forall k ps m (mu v : part -> R), mixable k ps -> mixture_of ps m ->
  (forall p, In p ps -> comp_mean (p_comp p) = Fin (mu p) /\ comp_var (p_comp p) = Fin (v p)) ->
  mix_mean m = Ok (Fin (average ps mu)) /\
  mix_var m = Ok (Fin (average ps v + average ps (fun p => (mu p - average ps mu) ^ 2))) /\
  ((forall p, In p ps -> 0 <= v p) -> 0 <= average ps v + average ps (fun p => (mu p - average ps mu) ^ 2)).
Proof.
  intros k ps m mu v H M Hmv.
  assert (E : mix_mean m = Ok (Fin (average ps mu))) by (apply (weighted_sum_value H M); intros; apply Hmv; auto).
  split; [exact E|]. split.
  - unfold mix_var. rewrite (weighted_sum_value H M _ (fun p => v p + mu p ^ 2)).
    2: { intros p Hp. destruct (Hmv p Hp) as [-> ->]. cbn. reflexivity. }
    cbn [bind]. rewrite E. cbn -[pow average]. do 2 f_equal. set (mm := average ps mu).
    rewrite (average_ext (fun p => (mu p - mm) ^ 2) (fun p => (mu p ^ 2 - (2 * mm) * mu p) + mm ^ 2)) by (intros; ring).
    rewrite !average_plus, average_minus, average_scal, (average_const H). fold mm. ring.
  - intro Hv. apply Rplus_le_le_0_compat.
    + rewrite <- (average_const H 0). apply (average_le H). auto.
    + rewrite <- (average_const H 0). apply (average_le H). intros. apply pow2_ge_0.
Qed.
(** When the components live on {s, ..., t} and report their own mean and variance, the mixture reports the mean and
    variance of the mixture law. *)
Theorem C18_moments_of_the_law : forall ps m s t, mixable Discrete ps -> mixture_of ps m -> (s <= t)%Z ->
  (forall p, In p ps -> values_in (p_F p) s t /\
     comp_mean (p_comp p) = Fin (expect (p_F p) s t (fun x => x)) /\
     comp_var (p_comp p) = Fin (expect (p_F p) s t (fun x => (x - expect (p_F p) s t (fun x => x)) ^ 2))) ->
  let mu := expect (mixture_law ps) s t (fun x => x) in
  mix_mean m = Ok (Fin mu) /\ mix_var m = Ok (Fin (expect (mixture_law ps) s t (fun x => (x - mu) ^ 2))).
Proof.
  intros ps m s t H M Hst Hp mu.
  destruct (C18_mean_and_variance _ _ _ (fun p => expect (p_F p) s t (fun x => x))
    (fun p => expect (p_F p) s t (fun x => (x - expect (p_F p) s t (fun x => x)) ^ 2)) H M) as (A & B & _).
  { intros p Hi. apply Hp; auto. }
  assert (X : forall g, expect (mixture_law ps) s t g = average ps (fun p => expect (p_F p) s t g)).
  { intro g. unfold expect, mixture_law, average. change (fold_right Rplus 0 ?l) with (Rsum l).
    rewrite (Rsum_map_ext _ (fun z => Rsum (map (fun p => share ps p * (g (IZR z) * (p_F p (Fin (IZR z)) - p_F p (Fin (IZR z - 1))))) ps))).
    - rewrite Rsum_exchange. apply Rsum_map_ext. intros p Hi. rewrite Rsum_map_scal. reflexivity.
    - intros z _. rewrite <- Rsum_map_minus, <- Rsum_map_scal. apply Rsum_map_ext. intros; ring. }
  unfold mu. rewrite !X. split; [exact A|]. rewrite B. do 2 f_equal.
  set (mm := average ps (fun p => expect (p_F p) s t (fun x => x))). rewrite <- average_plus. apply average_ext. intros p Hi.
  destruct (Hp p Hi) as [[V1 V2] _]. set (F := p_F p) in *. set (e := expect F s t (fun x => x)).
  assert (Tot : Rsum (map (fun z => F (Fin (IZR z)) - F (Fin (IZR z - 1))) (arange s (t + 1))) = 1).
  { etransitivity; [apply (telescope F s (t + 1)); lia|]. rewrite plus_IZR. replace (IZR t + 1 - 1) with (IZR t) by ring. rewrite V1, V2. ring. }
  unfold expect. change (fold_right Rplus 0 ?l) with (Rsum l). 
  set (w := fun z => F (Fin (IZR z)) - F (Fin (IZR z - 1))) in *.
  assert (E1 : Rsum (map (fun z => IZR z * w z) (arange s (t + 1))) = e) by reflexivity.
  change (Rsum (map (fun z => (IZR z - e) ^ 2 * w z) (arange s (t + 1))) + (e - mm) ^ 2 = Rsum (map (fun z => (IZR z - mm) ^ 2 * w z) (arange s (t + 1)))).
  rewrite (Rsum_map_ext (fun z => (IZR z - mm) ^ 2 * w z) (fun z => (IZR z - e) ^ 2 * w z + ((2 * (e - mm)) * (IZR z * w z) + ((e - mm) ^ 2 - 2 * (e - mm) * e) * w z))) by (intros; ring).
  rewrite !Rsum_map_plus, !Rsum_map_scal, E1, Tot. ring.
Qed.
(** Invariances: the order of the components, splitting one of them, and scaling all weights. *)

(** [m] and [m'] report the same cdf, pdf, logpdf, mean, variance and support. *)
Definition same_answers (ps ps' : list part) (m m' : mixture) : Prop :=
  mx_supp m = mx_supp m' /\ mx_kind m = mx_kind m' /\
  (forall x, number x -> mix_cdf m x = mix_cdf m' x) /\
  (forall x, number x -> (forall p, In p (ps ++ ps') -> exists f, m_pdf (comp (p_comp p)) x = Fin f /\ 0 <= f) ->
     mix_pdf m x = mix_pdf m' x /\ mix_logpdf m x = mix_logpdf m' x) /\
  ((forall p, In p (ps ++ ps') -> exists mu v, comp_mean (p_comp p) = Fin mu /\ comp_var (p_comp p) = Fin v) ->
     mix_mean m = mix_mean m' /\ mix_var m = mix_var m').

Definition fin_or0 (x : xr) : R := match x with Fin r => r | _ => 0 end.
Lemma same_averages k ps ps' m m' : mixable k ps -> mixable k ps' -> mixture_of ps m -> mixture_of ps' m' ->
  (forall h : component -> (xr -> R) -> R, average ps (fun p => h (p_comp p) (p_F p)) = average ps' (fun p => h (p_comp p) (p_F p))) ->
  (forall c, In c (map p_comp ps) <-> In c (map p_comp ps')) -> same_answers ps ps' m m'.
Proof.
  intros H H' M M' A C. unfold same_answers.
  destruct (make_mixture_ok k ps H) as (m0 & M0 & K & _ & _ & _ & S1 & S2 & S3). unfold mixture_of in *. rewrite M in M0. injection M0 as <-.
  destruct (make_mixture_ok k ps' H') as (m0 & M0 & K' & _ & _ & _ & S1' & S2' & S3'). unfold mixture_of in *. rewrite M' in M0. injection M0 as <-.
  assert (T : forall p, In p ps -> exists p', In p' ps' /\ p_comp p' = p_comp p).
  { intros p Hp. assert (I : In (p_comp p) (map p_comp ps')) by (apply C, in_map; auto). apply in_map_iff in I. destruct I as (p' & E & I). eauto. }
  assert (T' : forall p, In p ps' -> exists p', In p' ps /\ p_comp p' = p_comp p).
  { intros p Hp. assert (I : In (p_comp p) (map p_comp ps)) by (apply C, in_map; auto). apply in_map_iff in I. destruct I as (p' & E & I). eauto. }
  split; [|split; [congruence|split; [|split]]].
  - destruct (mx_supp m) as [lo up], (mx_supp m') as [lo' up']. cbn in *. f_equal.
    + destruct S2 as (p & Hp & ->), S2' as (p' & Hp' & ->). destruct (T p Hp) as (q & Hq & Eq), (T' p' Hp') as (q' & Hq' & Eq').
      apply xle_antisym; [rewrite <- Eq'; apply S1; auto|rewrite <- Eq; apply S1'; auto].
    + destruct S3 as (p & Hp & ->), S3' as (p' & Hp' & ->). destruct (T p Hp) as (q & Hq & Eq), (T' p' Hp') as (q' & Hq' & Eq').
      apply xle_antisym; [rewrite <- Eq; apply S1'; auto|rewrite <- Eq'; apply S1; auto].
  - intros x Nx. rewrite (proj1 (C18_cdf _ _ _ H M) x Nx), (proj1 (C18_cdf _ _ _ H' M') x Nx). do 2 f_equal.
    apply (A (fun _ F => F x)).
  - intros x Nx Hf. set (h := fun (c : component) (_ : xr -> R) => fin_or0 (m_pdf (comp c) x)).
    assert (V : forall p, In p (ps ++ ps') -> m_pdf (comp (p_comp p)) x = Fin (h (p_comp p) (p_F p)) /\ 0 <= h (p_comp p) (p_F p)).
    { intros p Hp. destruct (Hf p Hp) as (f & E & Pf). unfold h. rewrite E. auto. }
    destruct (C18_logpdf _ _ _ x (fun p => h (p_comp p) (p_F p)) H M Nx) as (g & E1 & E2); [intros; apply V, in_or_app; auto|].
    destruct (C18_logpdf _ _ _ x (fun p => h (p_comp p) (p_F p)) H' M' Nx) as (g' & E1' & E2'); [intros; apply V, in_or_app; auto|].
    assert (G : mix_pdf m x = Ok (Fin (average ps (fun p => h (p_comp p) (p_F p))))) by (apply (weighted_sum_value H M); intros; apply V, in_or_app; auto).
    assert (G' : mix_pdf m' x = Ok (Fin (average ps' (fun p => h (p_comp p) (p_F p))))) by (apply (weighted_sum_value H' M'); intros; apply V, in_or_app; auto).
    rewrite G in E1. rewrite G' in E1'. injection E1 as <-. injection E1' as <-. rewrite G, G', E2, E2', (A h). auto.
  - intros Hmv. set (hm := fun (c : component) (_ : xr -> R) => fin_or0 (comp_mean c)). set (hv := fun (c : component) (_ : xr -> R) => fin_or0 (comp_var c)).
    assert (V : forall p, In p (ps ++ ps') -> comp_mean (p_comp p) = Fin (hm (p_comp p) (p_F p)) /\ comp_var (p_comp p) = Fin (hv (p_comp p) (p_F p))).
    { intros p Hp. destruct (Hmv p Hp) as (mu & v & E1 & E2). unfold hm, hv. rewrite E1, E2. auto. }
    destruct (C18_mean_and_variance _ _ _ (fun p => hm (p_comp p) (p_F p)) (fun p => hv (p_comp p) (p_F p)) H M) as (E1 & E2 & _); [intros; apply V, in_or_app; auto|].
    destruct (C18_mean_and_variance _ _ _ (fun p => hm (p_comp p) (p_F p)) (fun p => hv (p_comp p) (p_F p)) H' M') as (E1' & E2' & _); [intros; apply V, in_or_app; auto|].
    rewrite E1, E2, E1', E2', (A hm), (A hv). split; [reflexivity|]. do 3 f_equal.
    set (mm := average ps' (fun p => hm (p_comp p) (p_F p))). apply (A (fun c F => (hm c F - mm) ^ 2)).
Qed.
Theorem C18_order_irrelevant : forall k ps ps' m m', mixable k ps -> Permutation ps ps' -> mixture_of ps m -> mixture_of ps' m' ->
  same_answers ps ps' m m'.
Proof.
  intros k ps ps' m m' H P M M'.
  assert (W : Rsum (map p_weight ps) = Rsum (map p_weight ps')) by (apply Rsum_perm, Permutation_map, P).
  assert (H' : mixable k ps').
  { destruct H as [H W0]. split; [|lra]. intros p Hp. apply H. eapply Permutation_in; [symmetry; exact P|exact Hp]. }
  apply (same_averages k); auto.
  - intro h. unfold average, share. rewrite <- W. apply Rsum_perm, Permutation_map, P.
  - intro c. split; apply Permutation_in, Permutation_map; [exact P|symmetry; exact P].
Qed.
(** Replacing a component of weight a + b by two copies of weights a and b changes nothing. *)
Theorem C18_split_component : forall k ps qs c F a b m m', 0 <= a -> 0 <= b ->
  let whole := ps ++ {| p_comp := c; p_F := F; p_weight := a + b |} :: qs in
  let parts := ps ++ {| p_comp := c; p_F := F; p_weight := a |} :: {| p_comp := c; p_F := F; p_weight := b |} :: qs in
  mixable k whole -> mixture_of whole m -> mixture_of parts m' -> same_answers whole parts m m'.
Proof.
  intros k ps qs c F a b m m' Ha Hb whole parts H M M'.
  assert (W : Rsum (map p_weight whole) = Rsum (map p_weight parts)).
  { unfold whole, parts. rewrite !map_app, !Rsum_app. cbn [map p_weight]. rewrite !Rsum_cons. ring. }
  assert (H' : mixable k parts).
  { destruct H as [H W0]. split; [|lra]. intros p Hp. unfold parts in Hp. apply in_app_iff in Hp.
    assert (X := H {| p_comp := c; p_F := F; p_weight := a + b |}). cbn in X.
    destruct Hp as [Hp|[<-|[<-|Hp]]]; cbn.
    - apply H. apply in_or_app; auto.
    - destruct X as (X1 & X2 & X3 & _ & X5); [apply in_or_app; right; left; reflexivity|auto].
    - destruct X as (X1 & X2 & X3 & _ & X5); [apply in_or_app; right; left; reflexivity|auto].
    - apply H. apply in_or_app; right; right; auto. }
  apply (same_averages k); auto.
  - intro h. unfold average, share. rewrite W. set (w := Rsum (map p_weight parts)).
    unfold whole, parts. rewrite !map_app, !Rsum_app. cbn [map p_weight p_comp p_F]. rewrite !Rsum_cons. unfold Rdiv. ring.
  - intro x. unfold whole, parts. rewrite !map_app. cbn [map p_comp]. rewrite !in_app_iff. cbn [In]. tauto.
Qed.
(** Multiplying all weights by a positive constant changes nothing, not even the weights in force. *)
Definition rescale (c : R) (p : part) : part := {| p_comp := p_comp p; p_F := p_F p; p_weight := c * p_weight p |}.
Theorem C18_weight_scale : forall k ps c m m', 0 < c -> mixable k ps -> mixture_of ps m -> mixture_of (map (rescale c) ps) m' -> m = m'.
Proof.
  intros k ps c m m' Hc H M M'.
  assert (W : Rsum (map p_weight (map (rescale c) ps)) = c * Rsum (map p_weight ps)).
  { rewrite map_map. cbn. apply Rsum_map_scal. }
  assert (H' : mixable k (map (rescale c) ps)).
  { destruct H as [H W0]. split; [|rewrite W; apply Rmult_lt_0_compat; auto]. intros p Hp. apply in_map_iff in Hp.
    destruct Hp as (q & <- & Hq). cbn. destruct (H q Hq) as (A & B & C & D & E). repeat (split; auto). apply Rmult_le_pos; lra. }
  assert (Ec : map p_comp (map (rescale c) ps) = map p_comp ps) by (rewrite map_map; reflexivity).
  destruct (make_mixture_ok _ _ H) as (m0 & M0 & K & Fr & Co & We & _).
  destruct (make_mixture_ok _ _ H') as (m1 & M1 & K' & Fr' & Co' & We' & _).
  unfold mixture_of in *. rewrite M in M0. injection M0 as <-. rewrite M' in M1. injection M1 as <-.
  assert (S : mx_supp m = mx_supp m').
  { unfold make_mixture in M, M'. rewrite Ec in M'. destruct (if forallb _ _ then _ else _); [|discriminate]. cbn [bind] in *.
    destruct (np_min_list _); [|discriminate]. destruct (np_max_list _); [|discriminate]. cbn [bind] in *. injection M as <-. injection M' as <-. reflexivity. }
  destruct m as [k1 c1 w1 s1 f1], m' as [k2 c2 w2 s2 f2]. cbn in *.
  rewrite Ec in Co'. subst. f_equal. f_equal. rewrite map_map. apply map_ext_in. intros p Hp. unfold share. rewrite W. cbn. f_equal.
  destruct H as [_ W0]. field. lra.
Qed.
(** Without normalisation (a component without parameters) the weights are used as given. *)
Theorem C18_unfrozen_weights_not_normalised_refuted :
  ~ (forall ds ws m us, make_mixture ds (Some ws) = Ok m -> 0 < Rsum ws -> mx_weights m = Some (map Fin us) -> Rsum us = 1).
Proof.
  intro C. set (c := {| comp := unif; comp_mean := NaN; comp_var := NaN; comp_frozen := false |}).
  specialize (C [c; c] [2; 3] _ [2; 3] eq_refl). unfold Rsum in C. cbn in C. specialize (C ltac:(lra) eq_refl). lra.
Qed.

(** A fair coin on {1, 2} mixed 3:1 with a four sided die. *)
Definition coin_part (w : R) : part := {| p_comp := {| comp := die 2; comp_mean := Fin (3 / 2); comp_var := Fin (1 / 4); comp_frozen := true |};
  p_F := die_F 2; p_weight := w |}.
Definition die_part (w : R) : part := {| p_comp := {| comp := die 4; comp_mean := Fin (5 / 2); comp_var := Fin (5 / 4); comp_frozen := true |};
  p_F := die_F 4; p_weight := w |}.
Example C18_example : let ps := [coin_part 3; die_part 1] in
  mixable Discrete ps /\ exists m, mixture_of ps m /\
    mix_cdf m (Fin (IZR 1)) = Ok (Fin (7 / 16)) /\ mix_mean m = Ok (Fin (7 / 4)) /\ mix_var m = Ok (Fin (11 / 16)) /\
    mx_supp m = (Fin 1, Fin 4).
Proof.
  intro ps. assert (H : mixable Discrete ps).
  { split; [|unfold Rsum; cbn; lra]. intros p [<-|[<-|[]]]; cbn -[die die_F].
    - split; [apply die_lawful; lia|]. repeat split; try (cbn; discriminate); lra.
    - split; [apply die_lawful; lia|]. repeat split; try (cbn; discriminate); lra. }
  split; [exact H|]. destruct (make_mixture_ok _ _ H) as (m & M & _ & _ & _ & _ & S1 & S2 & S3). exists m. split; [exact M|].
  destruct (C18_cdf _ _ _ H M) as [Cd _]. rewrite Cd by auto.
  destruct (C18_mean_and_variance _ _ _ (fun p => fin_or0 (comp_mean (p_comp p))) (fun p => fin_or0 (comp_var (p_comp p))) H M) as (Em & Ev & _).
  { intros p [<-|[<-|[]]]; cbn; auto. }
  rewrite Em, Ev. unfold mixture_law, average, share, ps, Rsum. cbn -[die_F].
  rewrite (die_F_IZR 2 1), (die_F_IZR 4 1) by lia. cbn -[Rdiv].
  split; [do 2 f_equal; field|]. split; [do 2 f_equal; field|]. split; [do 2 f_equal; field|].
  destruct (mx_supp m) as [lo up]. cbn in *. f_equal.
  - destruct S2 as (p & [<-|[<-|[]]] & ->); reflexivity.
  - destruct (S1 (die_part 1) ltac:(auto)) as [_ A]. destruct S3 as (p & [<-|[<-|[]]] & E); rewrite E in *; cbn in *; auto.
    apply xle_fin in A. lra.
Qed.

(* ------------------------------------------------------------------ C19 *)
Lemma count_sum (choices : list nat) n : Forall (fun i => (i < n)%nat) choices ->
  fold_right Nat.add 0%nat (map (fun i => count_idx i choices) (seq 0 n)) = length choices.
Proof.
  induction choices as [|c l IH]; intro H.
  - induction (seq 0 n); cbn; auto.
  - inversion H as [|? ? Hc Hl]; subst. cbn [length]. rewrite <- (IH Hl).
    assert (E : forall s m, fold_right Nat.add 0%nat (map (fun i => count_idx i (c :: l)) (seq s m)) =
      ((if (s <=? c)%nat && (c <? s + m)%nat then 1 else 0) + fold_right Nat.add 0%nat (map (fun i => count_idx i l) (seq s m)))%nat).
    { intros s m. revert s. induction m as [|m IHm]; intro s; cbn [seq map fold_right].
      - destruct (s <=? c)%nat eqn:A; cbn [andb]; [|reflexivity]. apply Nat.leb_le in A. replace (c <? s + 0)%nat with false by (symmetry; apply Nat.ltb_ge; lia). reflexivity.
      - rewrite IHm. unfold count_idx at 1. cbn [filter]. destruct (Nat.eqb_spec s c) as [->|Ne]; cbn [length].
        + replace (S c <=? c)%nat with false by (symmetry; apply Nat.leb_gt; lia). replace (c <=? c)%nat with true by (symmetry; apply Nat.leb_le; lia).
          replace (c <? c + S m)%nat with true by (symmetry; apply Nat.ltb_lt; lia). cbn [andb]. unfold count_idx. lia.
        + fold (count_idx s l). replace (S s <=? c)%nat with (s <=? c)%nat by (destruct (Nat.leb_spec s c), (Nat.leb_spec (S s) c); auto; lia).
          replace (S s + m)%nat with (s + S m)%nat by lia. destruct ((s <=? c)%nat && (c <? s + S m)%nat); lia. }
    rewrite E. cbn [Nat.leb]. replace (c <? 0 + n)%nat with true by (symmetry; apply Nat.ltb_lt; lia). cbn.
    reflexivity.
Qed.
Lemma concat_flat_map_blocks {A} (f : nat -> list (list A)) g l : (forall i, concat (f i) = g i) -> concat (flat_map f l) = concat (map g l).
Proof. intro H. induction l as [|i l IH]; cbn; [reflexivity|]. rewrite concat_app, IH, H. reflexivity. Qed.
(** Mixture.rvs returns exactly as many values as were requested; component i contributes as many as it was chosen. *)
Theorem C19_mixture_sizes : forall {A} (draw : nat -> nat -> list A) n choices, choices <> [] ->
  Forall (fun i => (i < n)%nat) choices -> (forall i k, length (draw i k) = k) ->
  exists blocks out, mix_rvs draw n choices = Ok out /\ out = concat blocks /\ length blocks = n /\
    length out = length choices /\
    (forall i b, nth_error blocks i = Some b -> length b = length (filter (Nat.eqb i) choices) /\
       (b <> [] -> b = draw i (length b))).
Proof.
  intros A draw n choices NE Hc Hd.
  set (block := fun i => if Nat.eqb (count_idx i choices) 0 then [] else draw i (count_idx i choices)).
  assert (Lb : forall i, length (block i) = count_idx i choices).
  { intro i. unfold block. destruct (Nat.eqb_spec (count_idx i choices) 0) as [E|E]; [rewrite E; reflexivity|apply Hd]. }
  assert (E : forall l, concat (flat_map (fun i => let n := count_idx i choices in if Nat.eqb n 0 then [] else [draw i n]) l) = concat (map block l)).
  { intro l. apply concat_flat_map_blocks. intro i. cbv zeta. unfold block. destruct (Nat.eqb _ 0); cbn; [reflexivity|apply app_nil_r]. }
  exists (map block (seq 0 n)), (concat (map block (seq 0 n))).
  assert (Len : length (concat (map block (seq 0 n))) = length choices).
  { rewrite <- (count_sum choices n Hc). generalize (seq 0 n). induction l as [|i l IH]; cbn; [reflexivity|].
    rewrite app_length, Lb, IH. reflexivity. }
  split; [|split; [reflexivity|split; [rewrite map_length; apply seq_length|split; [exact Len|]]]].
  - unfold mix_rvs. rewrite <- E in Len |- *. destruct (flat_map _ (seq 0 n)) eqn:F; [|reflexivity]. exfalso. cbn in Len. destruct choices; [congruence|discriminate].
  - intros i b Hb. rewrite nth_error_map in Hb.
    assert (Hs : nth_error (seq 0 n) i = Some i).
    { destruct (nth_error (seq 0 n) i) as [j|] eqn:Ej; [|discriminate]. assert (i < n)%nat.
      { rewrite <- (seq_length n 0). apply nth_error_Some. congruence. }
      rewrite (nth_error_nth' _ 0%nat) in Ej by (rewrite seq_length; auto). rewrite seq_nth in Ej by auto. cbn in Ej. congruence. }
    rewrite Hs in Hb. cbn in Hb. injection Hb as <-. split; [apply Lb|]. intro N. rewrite Lb. unfold block in *.
    destruct (Nat.eqb (count_idx i choices) 0); [congruence|reflexivity].
Qed.
(** Values come grouped by component: the i-th value is not drawn from the i-th chosen component. *)
Theorem C19_mixture_grouped_refuted :
  ~ (forall (draw : nat -> nat -> list nat) n choices out, (forall i k, draw i k = repeat i k) ->
       Forall (fun i => (i < n)%nat) choices -> mix_rvs draw n choices = Ok out -> out = choices).
Proof.
  intro H. specialize (H (@repeat nat) 2%nat [1; 0]%nat [0; 1]%nat (fun _ _ => eq_refl)).
  assert (E : [0; 1]%nat = [1; 0]%nat); [|discriminate]. apply H; [|reflexivity]. repeat constructor.
Qed.
(** Asking for no values raises. *)
Theorem C19_mixture_size_zero_refuted : forall {A} (draw : nat -> nat -> list A) n, mix_rvs draw n [] = Err ValueError.
Proof.
  intros A draw n. unfold mix_rvs. cbv zeta. cbn [count_idx filter length Nat.eqb].
  assert (E : forall l, flat_map (fun i : nat => if Nat.eqb (count_idx i []) 0 then [] else [draw i (count_idx i [])]) l = []).
  { induction l; cbn; auto. } rewrite E. reflexivity.
Qed.

(* ------------------------------------------------------------------ C48 *)
Lemma xmul10 r : xmul (Fin r) (Fin 10) = Fin (r * 10).
Proof. reflexivity. Qed.
Lemma pow10_grows r : exists n, r <= 10 ^ n.
Proof.
  destruct (Pow_x_infinity 10 ltac:(rewrite Rabs_right; lra) r) as [N HN]. exists N. specialize (HN N (le_n _)).
  rewrite Rabs_right in HN; [lra|]. apply Rle_ge, pow_le. lra.
Qed.
Section Bracket.
Context (cdf : xr -> xr) (F : xr -> R) (q : R).
Context (Hc : forall x, number x -> cdf x = Fin (F x)) (D : distribution_function F) (Hq : 0 < q < 1).

Lemma test_left l : xltb (Fin 0) (xsub (cdf (Fin l)) (Fin q)) = Rltb q (F (Fin l)).
Proof. rewrite Hc by auto. cbn. destruct (Rltb_spec 0 (F (Fin l) + - q)), (Rltb_spec q (F (Fin l))); auto; lra. Qed.
Lemma test_right l : xltb (xsub (cdf (Fin l)) (Fin q)) (Fin 0) = Rltb (F (Fin l)) q.
Proof. rewrite Hc by auto. cbn. destruct (Rltb_spec (F (Fin l) + - q) 0), (Rltb_spec (F (Fin l)) q); auto; lra. Qed.

Lemma go_left_sound fuel : forall l r a b, l < 0 -> go_left fuel cdf (Fin q) (Fin l) r = Some (a, b) ->
  exists x, a = Fin x /\ x <= l /\ F (Fin x) <= q.
Proof.
  induction fuel as [|f IH]; intros l r a b Hl; cbn [go_left]; rewrite test_left; destruct (Rltb_spec q (F (Fin l))) as [A|A]; try discriminate.
  - intro E. injection E as <- <-. exists l. split; [auto|]. lra.
  - rewrite xmul10. intro E. apply IH in E; [|lra]. destruct E as (x & -> & X & Y). exists x. split; [auto|]. lra.
  - intro E. injection E as <- <-. exists l. split; [auto|]. lra.
Qed.
Lemma go_left_stops n : forall l r, l < 0 -> F (Fin (l * 10 ^ n)) <= q -> forall fuel, (n <= fuel)%nat -> go_left fuel cdf (Fin q) (Fin l) r <> None.
Proof.
  induction n as [|n IH]; intros l r Hl Hn fuel Hf.
  - cbn in Hn. rewrite Rmult_1_r in Hn. destruct fuel; cbn [go_left]; rewrite test_left, Rltb_false by auto; discriminate.
  - destruct fuel as [|f]; [lia|]. cbn [go_left]. rewrite test_left. destruct (Rltb_spec q (F (Fin l))); [|discriminate].
    rewrite xmul10. apply IH; [lra| |lia]. replace (l * 10 * 10 ^ n) with (l * 10 ^ S n) by (cbn; ring). exact Hn.
Qed.
Lemma go_right_sound fuel : forall l r a b, l < r -> 0 < r -> F (Fin l) <= q -> go_right fuel cdf (Fin q) (Fin l) (Fin r) = Some (a, b) ->
  exists x y, a = Fin x /\ b = Fin y /\ x < y /\ F (Fin x) <= q <= F (Fin y).
Proof.
  induction fuel as [|f IH]; intros l r a b Hl Hr Hq'; cbn [go_right]; rewrite test_right; destruct (Rltb_spec (F (Fin r)) q) as [A|A]; try discriminate.
  - intro E. injection E as <- <-. exists l, r. repeat split; auto; lra.
  - rewrite xmul10. intro E. apply IH in E; auto; lra.
  - intro E. injection E as <- <-. exists l, r. repeat split; auto; lra.
Qed.
Lemma go_right_stops n : forall l r, 0 < r -> q <= F (Fin (r * 10 ^ n)) -> forall fuel, (n <= fuel)%nat -> go_right fuel cdf (Fin q) l (Fin r) <> None.
Proof.
  induction n as [|n IH]; intros l r Hr Hn fuel Hf.
  - cbn in Hn. rewrite Rmult_1_r in Hn. destruct fuel; cbn [go_right]; rewrite test_right, Rltb_false by auto; discriminate.
  - destruct fuel as [|f]; [lia|]. cbn [go_right]. rewrite test_right. destruct (Rltb_spec (F (Fin r)) q); [|discriminate].
    rewrite xmul10. apply IH; [lra| |lia]. replace (r * 10 * 10 ^ n) with (r * 10 ^ S n) by (cbn; ring). exact Hn.
Qed.
Lemma bracket_ok lo up : number up -> up <> NInf -> exists N, forall fuel, (N <= fuel)%nat ->
  exists l r, bracket fuel cdf (lo, up) (Fin q) = Some (Fin l, Fin r) /\ l < r /\ F (Fin l) <= q <= F (Fin r).
Proof.
  intros Nu Hu. destruct D as (Mo & _ & _ & Tl & Th).
  assert (S : exists s, pymin (Fin (-10)) up = Fin s /\ s <= -10).
  { unfold pymin. destruct up as [u| | |]; cbn; try congruence.
    - destruct (Rltb_spec u (-10)); eexists; split; try reflexivity; lra.
    - eexists; split; [reflexivity|lra]. }
  destruct S as (s & Es & Hs).
  destruct (Tl q ltac:(lra)) as [rl Hrl]. destruct (pow10_grows (- rl)) as [n1 Hn1].
  destruct (Th q ltac:(lra)) as [rr Hrr]. destruct (pow10_grows rr) as [n2 Hn2].
  assert (S1 : F (Fin (s * 10 ^ n1)) <= q).
  { apply Rle_trans with (F (Fin rl)); [|lra]. apply Mo, xle_fin. assert (0 < 10 ^ n1) by (apply pow_lt; lra). nra. }
  assert (S2 : q <= F (Fin (10 * 10 ^ n2))).
  { eapply Rle_trans; [exact Hrr|]. apply Mo, xle_fin. assert (0 < 10 ^ n2) by (apply pow_lt; lra). lra. }
  exists (n1 + n2)%nat. intros fuel Hf. unfold bracket. cbn [snd]. rewrite Es.
  destruct (go_left fuel cdf (Fin q) (Fin s) up) as [[a b]|] eqn:E1; [|exfalso; revert E1; apply (go_left_stops n1); auto; try lra; lia].
  apply go_left_sound in E1; [|lra]. destruct E1 as (x & -> & Hx & Fx).
  assert (Ep : pymax (Fin 10) (Fin x) = Fin 10) by (unfold pymax; cbn; rewrite Rltb_false by lra; reflexivity). rewrite Ep.
  destruct (go_right fuel cdf (Fin q) (Fin x) (Fin 10)) as [[a c]|] eqn:E2; [|exfalso; revert E2; apply (go_right_stops n2); auto; try lra; lia].
  apply go_right_sound in E2; auto; try lra. destruct E2 as (l & r & -> & -> & A & B). exists l, r. auto.
Qed.
End Bracket.

(** The search for a bracket always terminates, and the bracket contains the quantile: for every cdf of a finite variable
    and every q strictly between 0 and 1. *)
Theorem C48_bracket_found : forall cdf F q lo up, (forall x, number x -> cdf x = Fin (F x)) -> distribution_function F ->
  0 < q < 1 -> number up -> up <> NInf ->
  exists N, forall fuel, (N <= fuel)%nat ->
    exists l r, bracket fuel cdf (lo, up) (Fin q) = Some (Fin l, Fin r) /\ l < r /\ F (Fin l) <= q <= F (Fin r).
Proof. intros cdf F q lo up Hc D Hq Nu Hu. apply bracket_ok; auto. Qed.

(** What the code needs from scipy's root finder at this call: given a bracket it returns a point where the function
    changes sign, up to a tolerance. *)
Definition finds_crossing (brentq : (xr -> xr) -> xr -> xr -> xr) (tol : R) (F : xr -> R) (f : xr -> xr) (q : R) : Prop :=
  forall a b, a < b -> F (Fin a) <= q <= F (Fin b) ->
    exists x, brentq f (Fin a) (Fin b) = Fin x /\ a <= x <= b /\ F (Fin (x - tol)) <= q <= F (Fin (x + tol)).

(** find_ppf then returns, for 0 < q < 1, a point within the tolerance of where the cdf crosses q: no value more than tol
    above it has probability below q, none more than tol below it probability above q. With tolerance 0 (exact root)
    cdf(ppf(q)) = q. *)
Theorem C48_find_ppf : forall brentq tol k cdf F q lo up, (forall x, number x -> cdf x = Fin (F x)) -> distribution_function F ->
  0 <= tol -> 0 < q < 1 -> number up -> up <> NInf -> finds_crossing brentq tol F (fun x => xsub (cdf x) (Fin q)) q ->
  exists N, forall fuel, (N <= fuel)%nat -> exists x,
    find_ppf brentq false fuel k cdf (lo, up) (Fin q) = Some (Fin x) /\
    (forall y, x + tol <= y -> q <= F (Fin y)) /\ (forall y, y <= x - tol -> F (Fin y) <= q) /\
    (tol = 0 -> cdf (Fin x) = Fin q).
Proof.
  intros brentq tol k cdf F q lo up Hc D Ht Hq Nu Hu B. destruct (C48_bracket_found cdf F q lo up Hc D Hq Nu Hu) as [N HN].
  exists N. intros fuel Hf. destruct (HN fuel Hf) as (l & r & E & Hlr & HF). destruct (B l r Hlr HF) as (x & Ex & _ & H1 & H2).
  exists x. destruct D as (Mo & _). split; [|split; [|split]].
  - unfold find_ppf. cbn [xltb xeqb]. rewrite !Rltb_false, !Reqb_false by lra. rewrite E, Ex. reflexivity.
  - intros y Hy. eapply Rle_trans; [exact H2|]. apply Mo, xle_fin. lra.
  - intros y Hy. eapply Rle_trans; [|exact H1]. apply Mo, xle_fin. lra.
  - intros ->. rewrite Rminus_0_r in H1. rewrite Rplus_0_r in H2. rewrite Hc by auto. f_equal. lra.
Qed.
(** Ends of the range, and arguments outside. *)
Theorem C48_find_ppf_ends : forall brentq b fuel cdf lo up,
  (forall q, q < 0 \/ 1 < q -> forall k, find_ppf brentq b fuel k cdf (lo, up) (Fin q) = Some NaN) /\
  find_ppf brentq b fuel Continuous cdf (lo, up) (Fin 0) = Some lo /\
  find_ppf brentq b fuel Discrete cdf (lo, up) (Fin 0) = Some (xsub lo (Fin 1)) /\
  (forall k, find_ppf brentq b fuel k cdf (lo, up) (Fin 1) = Some up).
Proof.
  intros. unfold find_ppf. cbn [xltb xeqb fst snd]. split; [|split; [|split]].
  - intros q [H|H] k; [rewrite (Rltb_true q 0) by lra; reflexivity|]. rewrite (Rltb_false q 0), (Rltb_true 1 q) by lra. reflexivity.
  - rewrite !Rltb_false, Reqb_refl by lra. reflexivity.
  - rewrite !Rltb_false, Reqb_refl by lra. reflexivity.
  - intro k. rewrite !Rltb_false, Reqb_false, Reqb_refl by lra. reflexivity.
Qed.
(** For an integer valued variable an exact root exists only for the values taken by the cdf, so a root finder cannot
    return one and what find_ppf returns need not be an integer. *)
Theorem C48_discrete_exact_root_refuted :
  ~ (forall ps m q, mixable Discrete ps -> mixture_of ps m -> 0 < q < 1 -> exists x, mix_cdf m (Fin x) = Ok (Fin q)).
Proof.
  intro C. assert (H : mixable Discrete [coin_part 1]).
  { split; [|unfold Rsum; cbn; lra]. intros p [<-|[]]; cbn -[die die_F].
    split; [apply die_lawful; lia|]. repeat split; try (cbn; discriminate); lra. }
  destruct (make_mixture_ok _ _ H) as (m & M & _). destruct (C _ m (1 / 4) H M ltac:(lra)) as [x E].
  destruct (C18_cdf _ _ _ H M) as [Cd _]. rewrite Cd in E by auto. injection E as E.
  destruct (C18_pmf _ _ H M) as [_ Fl]. rewrite Fl in E. unfold mixture_law, average, share, Rsum in E. cbn -[die_F] in E.
  unfold Rfloor in E. rewrite (die_F_IZR 2) in E by lia. set (z := Z.max 0 (Z.min (Int_part x) 2)) in *.
  assert (E' : 2 * IZR z = 1) by (clear - E; replace (1 / (1 + 0)) with 1 in E by field; lra).
  rewrite <- mult_IZR in E'. apply eq_IZR in E'. lia.
Qed.
Example C48_example : let cdf := m_cdf unif in
  distribution_function unif_F /\ finds_crossing (fun _ _ _ => Fin (1 / 4)) 0 unif_F (fun x => xsub (cdf x) (Fin (1 / 4))) (1 / 4).
Proof.
  pose proof unif_lawful as L. split.
  - refine (conj (l_mono _ _ L) (conj eq_refl (conj eq_refl (conj (l_tight_lo _ _ L) (l_tight_hi _ _ L))))).
  - intros a b Hab Hf. exists (1 / 4). split; [reflexivity|]. cbn in *. pose proof (clip01_cases a). pose proof (clip01_cases b).
    replace (1 / 4 - 0) with (1 / 4) by ring. replace (1 / 4 + 0) with (1 / 4) by ring. pose proof (clip01_cases (1 / 4)). lra.
Qed.

Print Assumptions C18_empty_rejected.
Print Assumptions C18_without_weights.
Print Assumptions C18_cdf.
Print Assumptions C18_mean_and_variance.
Print Assumptions C18_split_component.
Print Assumptions C19_mixture_sizes.
Print Assumptions C48_bracket_found.
