(** Property theorems for the shapes of samples and the use of the random state: C92; quantiles of arrays of any shape: C90. *)
From Coq Require Import List Bool Arith ZArith Reals Lia Lra.
From Verif Require Import Base XR LawModel ModModel RngModel.
Import ListNotations.

(* ---------------- specification ---------------- *)
(** The shape a size asks for. *)
Definition asked (s : size) : list nat := match s with NoSize => [] | Count n => [n] | Dims l => l end.
(** An array with as many values as its shape says. *)
Definition is_array {A} (v : nd A) : Prop := length (data v) = total (shape v).
Section Spec.
Variable F : Type.
Notation dist := (dist F).
(** No mixture at any depth. *)
Fixpoint without_mixtures (d : dist) : Prop :=
  match d with
  | Family _ _ => True
  | Truncated _ d _ _ | Censored _ d _ _ | Hurdle _ d _ => without_mixtures d
  | Mixture _ _ _ => False
  end.
(** The values themselves come from a mixture: it is one, possibly censored. *)
Fixpoint sampled_as_mixture (d : dist) : Prop :=
  match d with Mixture _ _ _ => True | Censored _ d _ _ => sampled_as_mixture d | _ => False end.
(** Every mixture has a component. *)
Inductive proper : dist -> Prop :=
| proper_family f : proper (Family F f)
| proper_truncated d l u : proper d -> proper (Truncated F d l u)
| proper_censored d l u : proper d -> proper (Censored F d l u)
| proper_hurdle d p : proper d -> proper (Hurdle F d p)
| proper_mixture ds ws : ds <> [] -> Forall proper ds -> proper (Mixture F ds ws).
End Spec.

Section Proofs.
Variables G F : Type.
Variable new_rng : Z -> G.
Variable os_rng : nat -> G.
Variable family_rvs : F -> size -> G -> nd xr * G.
Variable family_ppf : F -> xr -> xr.
Variable uniform : size -> G -> nd xr * G.
Variable choice : nat -> list xr -> size -> G -> res (nd nat) * G.
Variable kind_of_dist : dist F -> kind.
Variable cdf1 : dist F -> xr -> xr.
Variable search : dist F -> xr -> res xr.
Variable odd_rows : nd xr -> res (nd xr).
Notation dist := (dist F).
Notation ppf := (ppf F family_ppf kind_of_dist cdf1 search odd_rows).
Notation rvs_rng := (rvs_rng G F family_rvs family_ppf uniform choice kind_of_dist cdf1 search odd_rows).
Notation rvs := (rvs G F new_rng os_rng family_rvs family_ppf uniform choice kind_of_dist cdf1 search odd_rows).
Notation rvs_calls := (rvs_calls G F new_rng os_rng family_rvs family_ppf uniform choice kind_of_dist cdf1 search odd_rows).
Notation with_rng := (with_rng G new_rng os_rng).

(** What is assumed of numpy and of the compiled samplers: arrays of the shape asked for; choice returns positions. *)
Definition shapes_kept : Prop :=
  (forall f s g, let v := fst (family_rvs f s g) in is_array v /\ shape v = asked s) /\
  (forall s g, let v := fst (uniform s g) in is_array v /\ shape v = asked s).
Definition choices_kept : Prop :=
  forall n ws s g, (0 < n)%nat -> exists v, fst (choice n ws s g) = Ok v /\ is_array v /\ shape v = asked s /\ Forall (fun i => (i < n)%nat) (data v).
Definition searches_end : Prop := forall d q, exists x, search d q = Ok x.

Lemma dist_ind2 (P : dist -> Prop) :
  (forall f, P (Family F f)) -> (forall d l u, P d -> P (Truncated F d l u)) -> (forall d l u, P d -> P (Censored F d l u)) ->
  (forall d p, P d -> P (Hurdle F d p)) -> (forall ds ws, Forall P ds -> P (Mixture F ds ws)) -> forall d, P d.
Proof.
  intros H1 H2 H3 H4 H5. fix IH 1. intros [f|d l u|d l u|d p|ds ws]; [apply H1|apply H2, IH|apply H3, IH|apply H4, IH|].
  apply H5. induction ds as [|d ds IHd]; constructor; [apply IH|exact IHd].
Qed.

(* ---------------- quantiles of arrays ---------------- *)
Lemma map_is_array {A B} (f : A -> B) v : is_array v -> is_array (nd_map f v).
Proof. unfold is_array, nd_map. cbn. rewrite map_length. auto. Qed.
Lemma nan_outside_same q v : is_array q -> is_array v -> shape v = shape q -> exists w, nan_outside q v = Ok w /\ is_array w /\ shape w = shape q.
Proof.
  intros Hq Hv E. unfold nan_outside. destruct (list_eq_dec _ _ _) as [_|N]; [|contradiction]. eexists. split; [reflexivity|].
  unfold is_array in *. cbn. rewrite map_length, combine_length, Hv, E, Hq. split; [apply Nat.min_id|reflexivity].
Qed.
Lemma nan_outside_one q v : is_array q -> shape v = [] -> is_array v -> exists w, nan_outside q v = Ok w /\ is_array w /\ shape w = shape q.
Proof.
  intros Hq E Hv. unfold nan_outside. destruct (list_eq_dec _ _ _) as [E'|N].
  - eexists. split; [reflexivity|]. unfold is_array in *. cbn. rewrite map_length, combine_length, Hv, E', Hq. split; [apply Nat.min_id|reflexivity].
  - unfold is_array in *. rewrite E in Hv. cbn in Hv. destruct (data v) as [|x [|y l]]; try discriminate. eexists. split; [reflexivity|]. cbn. rewrite map_length. auto.
Qed.
Lemma fill_length mask new : length (fill mask new) = length mask.
Proof. revert new. induction mask as [|[|] mask IH]; intro new; cbn; [reflexivity| |congruence]. destruct new; cbn; congruence. Qed.
Lemma mask_filter f (l : list xr) : length (filter (fun b => b) (map f l)) = length (filter f l).
Proof. induction l as [|x l IH]; cbn; [reflexivity|]. destruct (f x); cbn; congruence. Qed.
Lemma assign_ok q f (v : nd xr) : is_array q -> is_array v -> (shape v = [length (filter f (data q))] \/ shape v = []) ->
  exists w, assign q (map f (data q)) v = Ok w /\ is_array w /\ shape w = shape q.
Proof.
  intros Hq Hv [E|E]; unfold assign; rewrite E; rewrite mask_filter.
  - rewrite Nat.eqb_refl. eexists. split; [reflexivity|]. unfold is_array in *. cbn. rewrite fill_length, map_length. auto.
  - unfold is_array in Hv. rewrite E in Hv. cbn in Hv. destruct (data v) as [|x [|y l]]; try discriminate. eexists. split; [reflexivity|].
    unfold is_array in *. cbn. rewrite fill_length, map_length. auto.
Qed.
Lemma all_ok_map d l : searches_end -> exists l', all_ok (map (search d) l) = Ok l' /\ length l' = length l.
Proof.
  intro H. induction l as [|q l (l' & E & L)]; cbn; [exists []; auto|]. destruct (H d q) as [x Hx]. rewrite Hx. cbn. rewrite E. cbn. eexists. split; [reflexivity|]. cbn. congruence.
Qed.

Lemma ppf_plain d : without_mixtures F d -> forall q, is_array q -> exists v, ppf d q = Ok v /\ is_array v /\ shape v = shape q.
Proof.
  induction d as [f|d l u IH|d l u IH|d p IH|ds ws _] using dist_ind2; intros W q Hq; cbn [RngModel.ppf without_mixtures] in *; [| | | |contradiction].
  - eexists. split; [reflexivity|]. split; [apply map_is_array, Hq|reflexivity].
  - match goal with |- context [ppf d ?a] => destruct (IH W a) as (v & E & Hv & Sv); [apply map_is_array, Hq|] end. rewrite E. cbn. apply nan_outside_same; auto.
  - destruct (IH W q Hq) as (v & E & Hv & Sv). rewrite E. cbn. eexists. split; [reflexivity|]. split; [apply map_is_array, Hv|exact Sv].
  - set (f := fun q0 => xleb (xsub (Fin 1) p) q0).
    match goal with |- context [ppf d ?a] => destruct (IH W a) as (v & E & Hv & Sv) end.
    { unfold is_array. cbn. rewrite map_length. fold f. lia. }
    rewrite E. cbn. destruct (assign_ok q f v Hq Hv (or_introl Sv)) as (w & Ew & Hw & Sw). fold f. rewrite Ew. cbn. apply nan_outside_same; auto.
Qed.
(** Vectors and numbers, with mixtures anywhere. *)
Lemma ppf_vector d : searches_end -> forall q, is_array q -> (length (shape q) <= 1)%nat ->
  exists v, ppf d q = Ok v /\ is_array v /\ (shape v = shape q \/ (shape v = [] /\ shape q = [1%nat])).
Proof.
  intro HS. induction d as [f|d l u IH|d l u IH|d p IH|ds ws _] using dist_ind2; intros q Hq Hr; cbn [RngModel.ppf].
  - eexists. split; [reflexivity|]. split; [apply map_is_array, Hq|left; reflexivity].
  - match goal with |- context [ppf d ?a] => destruct (IH a) as (v & E & Hv & Sv); [apply map_is_array, Hq|exact Hr|] end. rewrite E. cbn. cbn in Sv.
    assert (N : exists w, nan_outside q v = Ok w /\ is_array w /\ shape w = shape q).
    { destruct Sv as [Sv|[Sv _]]; [apply nan_outside_same|apply nan_outside_one]; auto. }
    destruct N as (w & Ew & Hw & Sw). exists w. auto.
  - destruct (IH q Hq Hr) as (v & E & Hv & Sv). rewrite E. cbn. eexists. split; [reflexivity|]. split; [apply map_is_array, Hv|exact Sv].
  - set (f := fun q0 => xleb (xsub (Fin 1) p) q0).
    match goal with |- context [ppf d ?a] => destruct (IH a) as (v & E & Hv & Sv) end.
    { unfold is_array. cbn. rewrite map_length. fold f. lia. } { cbn. lia. }
    rewrite E. cbn. cbn in Sv.
    assert (A : exists w, assign q (map f (data q)) v = Ok w /\ is_array w /\ shape w = shape q) by (apply assign_ok; tauto).
    destruct A as (w & Ew & Hw & Sw). fold f. rewrite Ew. cbn. destruct (nan_outside_same q w Hq Hw Sw) as (z & Ez & Hz & Sz). exists z. auto.
  - unfold find_ppf. unfold is_array in *. destruct (shape q) as [|n [|m r]] eqn:E; [| |cbn in Hr; lia];
      destruct (all_ok_map (Mixture F ds ws) (data q) HS) as (l & El & Ll); rewrite El; cbn; eexists; (split; [reflexivity|]); cbn in *.
    + split; [lia|auto].
    + destruct (Nat.eqb_spec n 1) as [->|]; cbn; (split; [lia|auto]).
Qed.

(* ---------------- samples ---------------- *)
Section Shapes.
Hypothesis Hshape : shapes_kept.
Lemma rvs_rng_plain d s : without_mixtures F d -> forall g, exists v, fst (rvs_rng d s g) = Ok v /\ is_array v /\ shape v = asked s.
Proof.
  destruct Hshape as [Hf Hu]. induction d as [f|d l u _|d l u IH|d p _|ds ws _] using dist_ind2; intros W g; [| | | |destruct W].
  - cbn. specialize (Hf f s g). destruct (family_rvs f s g) as [v g']. cbn in *. eauto.
  - cbn [RngModel.rvs_rng]. specialize (Hu s g). destruct (uniform s g) as [v g']. cbn [fst] in *. destruct Hu as [A B].
    destruct (ppf_plain (Truncated F d l u) W v A) as (w & E & Hw & Sw). exists w. rewrite <- B. auto.
  - cbn [RngModel.rvs_rng]. destruct (IH W g) as (v & E & Hv & Sv). destruct (rvs_rng d s g) as [r g']. cbn in *. rewrite E. cbn. eexists. split; [reflexivity|]. split; [apply map_is_array, Hv|exact Sv].
  - cbn [RngModel.rvs_rng]. specialize (Hu s g). destruct (uniform s g) as [v g']. cbn [fst] in *. destruct Hu as [A B].
    destruct (ppf_plain (Hurdle F d p) W v A) as (w & E & Hw & Sw). exists w. rewrite <- B. auto.
Qed.

(** The loop over the components, given a name. *)
Fixpoint component_loop (idx : list nat) i (ds : list dist) g : res (list (nd xr)) * G :=
  match ds with
  | [] => (Ok [], g)
  | d :: r => let n := length (filter (Nat.eqb i) idx) in
      if Nat.eqb n 0 then component_loop idx (S i) r g
      else let '(v, g) := rvs_rng d (Count n) g in
           match v with Err e => (Err e, g) | Ok v => let '(l, g) := component_loop idx (S i) r g in (do l <- l; Ok (v :: l), g) end
  end.
Lemma rvs_rng_mixture ds ws s g : rvs_rng (Mixture F ds ws) s g =
  let '(idx, g) := choice (length ds) ws s g in
  match idx with Err e => (Err e, g) | Ok idx => let '(l, g) := component_loop (data idx) 0 ds g in (do l <- l; concatenate l, g) end.
Proof.
  cbn [RngModel.rvs_rng]. destruct (choice (length ds) ws s g) as [[idx|e] g1]; [|reflexivity].
  assert (E : forall ds i g, (fix loop (i : nat) (ds : list dist) (g : G) {struct ds} : res (list (nd xr)) * G :=
               match ds with
               | [] => (Ok [], g)
               | d :: r =>
                   let n := length (filter (Nat.eqb i) (data idx)) in
                   if Nat.eqb n 0 then loop (S i) r g
                   else let '(v, g) := rvs_rng d (Count n) g in
                        match v with
                        | Err e => (Err e, g)
                        | Ok v => let '(l, g) := loop (S i) r g in (do l <- l; Ok (v :: l), g)
                        end
               end) i ds g = component_loop (data idx) i ds g).
  { clear. induction ds as [|d r IH]; intros i g; [reflexivity|]. cbn [component_loop]. cbv zeta. destruct (Nat.eqb _ 0); [apply IH|].
    destruct (rvs_rng d _ g) as [[v|e] g']; [|reflexivity]. rewrite IH. reflexivity. }
  rewrite E. reflexivity.
Qed.
Definition between (i n : nat) (idx : list nat) : list nat := filter (fun j => Nat.leb i j && Nat.ltb j (i + n)) idx.
Lemma between_none i idx : between i 0 idx = [].
Proof. unfold between. induction idx as [|j idx IH]; [reflexivity|]. cbn [filter]. destruct (Nat.leb_spec i j), (Nat.ltb_spec j (i + 0)); cbn [andb]; try exact IH; lia. Qed.
Lemma between_step i n idx : length (between i (S n) idx) = (length (filter (Nat.eqb i) idx) + length (between (S i) n idx))%nat.
Proof.
  unfold between. induction idx as [|j idx IH]; [reflexivity|]. cbn [filter]. destruct (Nat.eqb_spec i j) as [->|N].
  - replace (Nat.leb j j && Nat.ltb j (j + S n)) with true by (symmetry; apply andb_true_iff; split; [apply Nat.leb_le|apply Nat.ltb_lt]; lia).
    replace (Nat.leb (S j) j && Nat.ltb j (S j + n)) with false by (symmetry; apply andb_false_iff; left; apply Nat.leb_gt; lia). cbn [length]. rewrite IH. reflexivity.
  - replace (Nat.leb (S i) j && Nat.ltb j (S i + n)) with (Nat.leb i j && Nat.ltb j (i + S n)).
    2:{ destruct (Nat.leb_spec i j), (Nat.leb_spec (S i) j), (Nat.ltb_spec j (i + S n)), (Nat.ltb_spec j (S i + n)); cbn; try reflexivity; lia. }
    destruct (Nat.leb i j && Nat.ltb j (i + S n)); cbn [length]; lia.
Qed.
Lemma between_all n idx : Forall (fun i => (i < n)%nat) idx -> between 0 n idx = idx.
Proof. unfold between. induction 1 as [|j idx Hj _ IH]; [reflexivity|]. cbn [filter Nat.add Nat.leb andb] in *. rewrite (proj2 (Nat.ltb_lt j n) Hj). f_equal. exact IH. Qed.
Lemma loop_nothing ds i g : component_loop [] i ds g = (Ok [], g).
Proof. revert i. induction ds as [|d ds IH]; intro i; cbn; [reflexivity|apply IH]. Qed.
Lemma loop_ok idx ds : (forall d, In d ds -> forall n g, (0 < n)%nat -> exists v, fst (rvs_rng d (Count n) g) = Ok v /\ is_array v /\ shape v = [n]) ->
  forall i g, exists l, fst (component_loop idx i ds g) = Ok l /\ Forall (fun v => exists n, shape v = [n]) l /\
    length (concat (map data l)) = length (between i (length ds) idx) /\ (l = [] -> between i (length ds) idx = []).
Proof.
  induction ds as [|d ds IH]; intros HD i g.
  - exists []. cbn. rewrite between_none. auto.
  - cbn [component_loop length]. cbv zeta. assert (HD' := fun d Hd => HD d (or_intror Hd)).
    destruct (Nat.eqb_spec (length (filter (Nat.eqb i) idx)) 0) as [Z0|NZ].
    + destruct (IH HD' (S i) g) as (l & E & Hl & L1 & L2). exists l. rewrite between_step, Z0. split; [exact E|]. split; [exact Hl|]. split; [exact L1|].
      intro El. apply length_zero_iff_nil. rewrite between_step, Z0, (L2 El). reflexivity.
    + destruct (HD d (or_introl eq_refl) (length (filter (Nat.eqb i) idx)) g) as (v & E & Hv & Sv); [lia|].
      destruct (rvs_rng d _ g) as [r g1]. cbn [fst] in E. subst r. destruct (IH HD' (S i) g1) as (l & E & Hl & L1 & L2).
      destruct (component_loop idx (S i) ds g1) as [r g2]. cbn [fst] in E. subst r. exists (v :: l). cbn. split; [reflexivity|]. split; [constructor; eauto|]. split; [|discriminate].
      rewrite app_length, L1, between_step. f_equal. unfold is_array in Hv. rewrite Hv, Sv. cbn. lia.
Qed.
Lemma rvs_rng_vector d : choices_kept -> searches_end -> proper F d ->
  (forall n g, (0 < n)%nat -> exists v, fst (rvs_rng d (Count n) g) = Ok v /\ is_array v /\ shape v = [n]) /\
  (forall s g, sampled_as_mixture F d -> if Nat.eqb (total (asked s)) 0 then fst (rvs_rng d s g) = Err ValueError
     else exists v, fst (rvs_rng d s g) = Ok v /\ is_array v /\ shape v = [total (asked s)]).
Proof.
  intros HC HS. destruct Hshape as [Hf Hu]. induction d as [f|d l u _|d l u IH|d p _|ds ws IH] using dist_ind2; intros P.
  - split; [|intros s g []]. intros n g _. cbn. specialize (Hf f (Count n) g). destruct (family_rvs f (Count n) g) as [v g']. cbn in *. eauto.
  - split; [|intros s g []]. intros n g _. cbn [RngModel.rvs_rng]. specialize (Hu (Count n) g). destruct (uniform (Count n) g) as [v g']. cbn [fst asked] in *. destruct Hu as [A B].
    cbn [RngModel.ppf]. destruct (ppf_vector d HS (nd_map (fun q => xadd (cdf1 d (adjust_lower (kind_of_dist d) l)) (xmul q (xsub (cdf1 d u) (cdf1 d (adjust_lower (kind_of_dist d) l))))) v) (map_is_array _ v A)) as (w & E & Hw & Sw).
    { cbn. rewrite B. cbn. lia. }
    rewrite E. cbn [bind]. cbn [nd_map shape] in Sw. rewrite <- B. destruct Sw as [Sw|[Sw _]]; [apply nan_outside_same|apply nan_outside_one]; auto.
  - inversion P as [| |? ? ? Pd| |]; subst. destruct (IH Pd) as [I1 I2]. split.
    + intros n g Hn. cbn [RngModel.rvs_rng]. destruct (I1 n g Hn) as (v & E & Hv & Sv). destruct (rvs_rng d (Count n) g) as [r g']. cbn in *. rewrite E. cbn. eexists. split; [reflexivity|]. split; [apply map_is_array, Hv|exact Sv].
    + intros s g M. specialize (I2 s g M). cbn [RngModel.rvs_rng]. destruct (rvs_rng d s g) as [r g']. cbn [fst] in *. destruct (Nat.eqb _ 0); [rewrite I2; reflexivity|].
      destruct I2 as (v & E & Hv & Sv). rewrite E. cbn. eexists. split; [reflexivity|]. split; [apply map_is_array, Hv|exact Sv].
  - split; [|intros s g []]. intros n g _. cbn [RngModel.rvs_rng]. specialize (Hu (Count n) g). destruct (uniform (Count n) g) as [v g']. cbn [fst asked] in *. destruct Hu as [A B].
    destruct (ppf_vector (Hurdle F d p) HS v A) as (w & E & Hw & Sw). { rewrite B. cbn. lia. }
    rewrite E. exists w. split; [reflexivity|]. split; [exact Hw|]. rewrite B in Sw. destruct Sw as [Sw|[Sw E1]]; [exact Sw|]. exfalso.
    cbn [RngModel.ppf] in E. cbv zeta in E. destruct (ppf d _) as [x|]; [|discriminate]. cbn [bind] in E. destruct (assign _ _ x) as [y|]; [|discriminate]. cbn [bind] in E.
    unfold nan_outside in E. destruct (list_eq_dec _ _ _); [injection E as <-; cbn in Sw; congruence|]. destruct (data y) as [|? [|]]; try discriminate. injection E as <-. cbn in Sw. congruence.
  - inversion P as [| | | |? ? NE FA]; subst.
    assert (HD : forall d, In d ds -> forall n g, (0 < n)%nat -> exists v, fst (rvs_rng d (Count n) g) = Ok v /\ is_array v /\ shape v = [n]).
    { intros d I. rewrite Forall_forall in IH, FA. apply (IH d I (FA d I)). }
    assert (M : forall s g, if Nat.eqb (total (asked s)) 0 then fst (rvs_rng (Mixture F ds ws) s g) = Err ValueError
     else exists v, fst (rvs_rng (Mixture F ds ws) s g) = Ok v /\ is_array v /\ shape v = [total (asked s)]).
    { intros s g. rewrite rvs_rng_mixture. assert (Hn : (0 < length ds)%nat) by (destruct ds; [congruence|cbn; lia]).
      destruct (HC (length ds) ws s g Hn) as (idx & E & Hi & Si & Fi). destruct (choice (length ds) ws s g) as [r g1]. cbn [fst] in E. subst r.
      destruct (loop_ok (data idx) ds HD 0 g1) as (l & El & Hl & L1 & L2). destruct (component_loop (data idx) 0 ds g1) as [r g2] eqn:Ec. cbn [fst] in El. subst r. cbn [fst bind].
      rewrite (between_all _ _ Fi) in L1, L2. unfold is_array in Hi. rewrite Hi, Si in L1. unfold concatenate.
      destruct (Nat.eqb_spec (total (asked s)) 0) as [Z0|NZ].
      - assert (l = []) as ->; [|reflexivity]. (* every sample of a component has values *)
        destruct l as [|v l]; [reflexivity|]. exfalso. clear L2.
        assert (D0 : data idx = []) by (apply length_zero_iff_nil; congruence). rewrite D0 in Ec. rewrite loop_nothing in Ec. congruence.
      - destruct l as [|v l]; [exfalso; apply NZ; rewrite <- Si, <- Hi, (L2 eq_refl); reflexivity|].
        rewrite (proj2 (forallb_forall _ _)).
        2:{ intros x Hx. rewrite Forall_forall in Hl. destruct (Hl x Hx) as [n ->]. reflexivity. }
        eexists. split; [reflexivity|]. unfold is_array. cbn [shape data total fold_right]. rewrite L1. split; [lia|reflexivity]. }
    split; [|intros s g _; apply M]. intros n g Hn. specialize (M (Count n) g). cbn in M. rewrite Nat.mul_1_r in M. destruct (Nat.eqb_spec n 0); [lia|]. exact M.
Qed.
End Shapes.

(* ---------------- the calls ---------------- *)
(** The generator a call works with. *)
Definition used (r : seed) (w : session G) : G := match r with NoSeed => os_rng (opened G w) | Seed z => new_rng z | TheGenerator => generator G w end.
Lemma fst_with {A} r (f : G -> A * G) w : fst (with_rng r f w) = fst (f (used r w)).
Proof. destruct r; cbn; try reflexivity. destruct (f (generator G w)). reflexivity. Qed.
Lemma rvs_with d s r w : rvs d s r w = with_rng r (rvs_rng d s) w.
Proof.
  induction d as [f|d l u _|d l u IH|d p _|ds ws _] using dist_ind2; try reflexivity. cbn [RngModel.rvs RngModel.rvs_rng]. rewrite IH. destruct r; cbn.
  - destruct (rvs_rng d s (os_rng (opened G w))). reflexivity.
  - destruct (rvs_rng d s (new_rng z)). reflexivity.
  - destruct (rvs_rng d s (generator G w)). reflexivity.
Qed.

(** A sample has the shape that was asked for, whatever the random state: every family, truncated, censored and with a hurdle, to
    any depth. *)
Theorem C92_shape : shapes_kept -> forall d s r w, without_mixtures F d ->
  exists v, fst (rvs d s r w) = Ok v /\ is_array v /\ shape v = asked s.
Proof. intros H d s r w W. rewrite rvs_with, fst_with. apply rvs_rng_plain; assumption. Qed.
(** With mixtures anywhere inside: n values when a number n is asked for. *)
Theorem C92_vector : shapes_kept -> choices_kept -> searches_end -> forall d n r w, proper F d -> (0 < n)%nat ->
  exists v, fst (rvs d (Count n) r w) = Ok v /\ is_array v /\ shape v = [n].
Proof. intros H1 H2 H3 d n r w P Hn. rewrite rvs_with, fst_with. apply (rvs_rng_vector H1 d H2 H3 P). exact Hn. Qed.
(** A mixture, censored or not: as many values as were asked for, always in one vector; ValueError for none. *)
Theorem C92_mixture : shapes_kept -> choices_kept -> searches_end -> forall d s r w, proper F d -> sampled_as_mixture F d ->
  if Nat.eqb (total (asked s)) 0 then fst (rvs d s r w) = Err ValueError
  else exists v, fst (rvs d s r w) = Ok v /\ is_array v /\ shape v = [total (asked s)].
Proof. intros H1 H2 H3 d s r w P M. rewrite rvs_with, fst_with. apply (rvs_rng_vector H1 d H2 H3 P). exact M. Qed.
(** So [Mixture(...).rvs()] is an array of one value and not a number, and [rvs((a, b))] a vector and not a matrix (documented:
    "int or tuple of ints"). *)
Theorem C92_mixture_shape_refuted : shapes_kept -> choices_kept -> searches_end -> forall d r w a b, proper F d -> sampled_as_mixture F d ->
  (0 < a)%nat -> (0 < b)%nat ->
  (exists v, fst (rvs d NoSize r w) = Ok v /\ shape v = [1%nat] /\ shape v <> asked NoSize) /\
  (exists v, fst (rvs d (Dims [a; b]) r w) = Ok v /\ shape v = [(a * b)%nat] /\ shape v <> asked (Dims [a; b])).
Proof.
  intros H1 H2 H3 d r w a b P M Ha Hb. split.
  - pose proof (C92_mixture H1 H2 H3 d NoSize r w P M) as H. cbn in H. destruct H as (v & E & _ & Sv). exists v. rewrite Sv. repeat split; [exact E|discriminate].
  - pose proof (C92_mixture H1 H2 H3 d (Dims [a; b]) r w P M) as H. cbn in H. rewrite Nat.mul_1_r in H. destruct (Nat.eqb_spec (a * b) 0); [nia|].
    destruct H as (v & E & _ & Sv). exists v. rewrite Sv. repeat split; [exact E|discriminate].
Qed.
(** A truncated mixture refuses every matrix of more than one column with ValueError ("the truth value of an array is
    ambiguous"). *)
Theorem C92_truncated_mixture_refuted : shapes_kept -> forall ds ws l u a b r w, (0 < a)%nat -> (1 < b)%nat ->
  fst (rvs (Truncated F (Mixture F ds ws) l u) (Dims [a; b]) r w) = Err ValueError.
Proof.
  intros [_ Hu] ds ws l u a b r w Ha Hb. rewrite rvs_with, fst_with. cbn [RngModel.rvs_rng]. specialize (Hu (Dims [a; b]) (used r w)).
  destruct (uniform (Dims [a; b]) (used r w)) as [v g]. cbn [fst asked] in *. destruct Hu as [_ Sv]. cbn [RngModel.ppf find_ppf nd_map shape]. unfold find_ppf. cbn [nd_map shape]. rewrite Sv.
  destruct (Nat.eqb_spec a 0); [lia|]. cbn [total fold_right]. rewrite Nat.mul_1_r. rewrite (proj2 (Nat.ltb_lt 1 b) Hb). reflexivity.
Qed.

(** A matrix holds the values of the vector of that many: if numpy and the compiled samplers fill arrays in order, so does every
    distribution made from them. *)
Definition filled_in_order : Prop :=
  (forall f l g, data (fst (family_rvs f (Dims l) g)) = data (fst (family_rvs f (Count (total l)) g))) /\
  (forall l g, data (fst (uniform (Dims l) g)) = data (fst (uniform (Count (total l)) g))).
Lemma fill_masked (f : xr -> bool) (h : xr -> xr) (l : list xr) : fill (map f l) (map h (filter f l)) = map (fun x => if f x then h x else Fin 0) l.
Proof. induction l as [|x l IH]; cbn; [reflexivity|]. destruct (f x); cbn; congruence. Qed.
Lemma map_combine {A} (f : xr -> xr -> A) (h : xr -> xr) l : map (fun p => f (fst p) (snd p)) (combine l (map h l)) = map (fun x => f x (h x)) l.
Proof. induction l as [|x l IH]; cbn; congruence. Qed.
Lemma ppf_entries d : without_mixtures F d -> exists f : xr -> xr, forall q, is_array q -> ppf d q = Ok (nd_map f q).
Proof.
  induction d as [f|d l u IH|d l u IH|d p IH|ds ws _] using dist_ind2; intros W; cbn [without_mixtures] in W; [| | | |contradiction].
  - exists (family_ppf f). reflexivity.
  - destruct (IH W) as [f Hf]. eexists. intros q Hq. cbn [RngModel.ppf]. rewrite Hf by (apply map_is_array, Hq). cbn [bind]. unfold nan_outside, nd_map. cbn [shape data].
    destruct (list_eq_dec _ _ _); [|contradiction]. rewrite map_map.
    rewrite (map_combine (fun x v => if xltb x (Fin 0) || xltb (Fin 1) x then NaN else v)). reflexivity.
  - destruct (IH W) as [f Hf]. eexists. intros q Hq. cbn [RngModel.ppf]. rewrite Hf by exact Hq. cbn [bind]. unfold nd_map. cbn [shape data]. rewrite map_map. reflexivity.
  - destruct (IH W) as [f Hf]. eexists. intros q Hq. cbn [RngModel.ppf]. cbv zeta. rewrite Hf by (unfold is_array; cbn; rewrite map_length; lia). cbn [bind].
    unfold assign, nd_map. cbn [shape data]. rewrite mask_filter, Nat.eqb_refl, map_map, fill_masked. cbn [bind]. unfold nan_outside. cbn [shape data]. destruct (list_eq_dec _ _ _); [|contradiction].
    rewrite (map_combine (fun x v => if xltb x (Fin 0) || xltb (Fin 1) x then NaN else v)). reflexivity.
Qed.
Lemma ppf_data d : without_mixtures F d -> forall q q', is_array q -> is_array q' -> data q = data q' ->
  forall v v', ppf d q = Ok v -> ppf d q' = Ok v' -> data v = data v'.
Proof.
  intros W q q' Hq Hq' D v v' E E'. destruct (ppf_entries d W) as [f Hf]. rewrite Hf in E, E' by assumption. injection E as <-. injection E' as <-. cbn. congruence.
Qed.
Theorem C92_reshaped : shapes_kept -> filled_in_order -> forall d l r w, without_mixtures F d ->
  exists v v', fst (rvs d (Dims l) r w) = Ok v /\ fst (rvs d (Count (total l)) r w) = Ok v' /\ data v = data v' /\ shape v = l.
Proof.
  intros H [Of Ou] d l r w W. pose proof (C92_shape H d (Dims l) r w W) as (v & E & _ & Sv). pose proof (C92_shape H d (Count (total l)) r w W) as (v' & E' & _ & _).
  exists v, v'. split; [exact E|]. split; [exact E'|]. split; [|exact Sv]. rewrite rvs_with, fst_with in E, E'. generalize dependent (used r w). intros g E E'. clear Sv r w.
  destruct H as [Hf Hu]. revert v v' E E'. induction d as [f|d lo u _|d lo u IH|d p _|ds ws _] using dist_ind2; intros v v' E E'; cbn [RngModel.rvs_rng] in *; [| | | |destruct W].
  - specialize (Of f l g). destruct (family_rvs f (Dims l) g), (family_rvs f (Count (total l)) g). cbn in *. congruence.
  - specialize (Ou l g). pose proof (Hu (Dims l) g) as [A _]. pose proof (Hu (Count (total l)) g) as [B _]. destruct (uniform (Dims l) g) as [x ?], (uniform (Count (total l)) g) as [y ?]. cbn [fst] in *.
    exact (ppf_data (Truncated F d lo u) W x y A B Ou v v' E E').
  - destruct (rvs_rng d (Dims l) g) as [[x|] ?], (rvs_rng d (Count (total l)) g) as [[y|] ?]; cbn in *; try discriminate. injection E as <-. injection E' as <-. cbn. f_equal. apply (IH W); reflexivity.
  - specialize (Ou l g). pose proof (Hu (Dims l) g) as [A _]. pose proof (Hu (Count (total l)) g) as [B _]. destruct (uniform (Dims l) g) as [x ?], (uniform (Count (total l)) g) as [y ?]. cbn [fst] in *.
    exact (ppf_data (Hurdle F d p) W x y A B Ou v v' E E').
Qed.

(* ---------------- quantiles of arrays ---------------- *)
(** The quantile function of a family, truncated, censored or with a hurdle to any depth, takes arrays of any shape: the result has
    that shape, and every value is the one the function gives for the probability at its place alone. *)
Theorem C90_quantiles_any_shape : forall d q, without_mixtures F d -> is_array q ->
  exists v, ppf d q = Ok v /\ is_array v /\ shape v = shape q /\
    forall i x, nth_error (data q) i = Some x -> exists y, nth_error (data v) i = Some y /\ ppf d (mkNd [] [x]) = Ok (mkNd [] [y]).
Proof.
  intros d q W Hq. destruct (ppf_entries d W) as [f Hf]. exists (nd_map f q). split; [apply Hf, Hq|]. split; [apply map_is_array, Hq|]. split; [reflexivity|].
  intros i x Hx. exists (f x). split; [cbn; rewrite nth_error_map, Hx; reflexivity|]. apply Hf. reflexivity.
Qed.
(** A mixture has no quantiles of a matrix of more than one column: ValueError. *)
Theorem C90_mixture_matrix_refuted : forall ds ws q a b, shape q = [a; b] -> (0 < a)%nat -> (1 < b)%nat -> ppf (Mixture F ds ws) q = Err ValueError.
Proof.
  intros ds ws q a b E Ha Hb. cbn [RngModel.ppf]. unfold find_ppf. rewrite E. destruct (Nat.eqb_spec a 0); [lia|]. cbn [total fold_right]. rewrite Nat.mul_1_r, (proj2 (Nat.ltb_lt 1 b) Hb). reflexivity.
Qed.

(* ---------------- histories ---------------- *)
Notation mkCall := (mkCall F).
Notation c_seed := (c_seed F).
(** With a number as seed the sample is the same in every history, and nothing else is affected: neither the user's generator nor
    later calls without a seed. *)
Theorem C92_seed : forall d s z (h h' : list (call F)) w w',
  last (fst (rvs_calls (h ++ [mkCall d s (Seed z)]) w)) (Err ValueError) = last (fst (rvs_calls (h' ++ [mkCall d s (Seed z)]) w')) (Err ValueError) /\
  snd (rvs_calls (h ++ [mkCall d s (Seed z)]) w) = snd (rvs_calls h w).
Proof.
  intros d s z h h' w w'.
  assert (A : forall h w, fst (rvs_calls (h ++ [mkCall d s (Seed z)]) w) = (fst (rvs_calls h w) ++ [fst (rvs_rng d s (new_rng z))])%list /\
                          snd (rvs_calls (h ++ [mkCall d s (Seed z)]) w) = snd (rvs_calls h w)).
  { clear. induction h as [|c h IH]; intro w.
    - cbn [app RngModel.rvs_calls c_dist c_size RngModel.c_seed]. rewrite rvs_with. split; reflexivity.
    - cbn [app RngModel.rvs_calls]. destruct (rvs (c_dist F c) (c_size F c) (c_seed c) w) as [v w1]. destruct (IH w1) as [I1 I2].
      destruct (rvs_calls (h ++ [mkCall d s (Seed z)]) w1) as [vs w2]. destruct (rvs_calls h w1) as [us w3]. cbn [fst snd] in *. rewrite I1, I2. split; reflexivity. }
  destruct (A h w) as [A1 A2]. destruct (A h' w') as [B1 _]. rewrite A1, B1, !last_last. auto.
Qed.
(** The samples drawn with a Generator, and the state it is left in, depend on the calls made with it only: calls with seeds and
    without a random state in between make no difference. *)
Definition with_generator (c : call F) : bool := match c_seed c with TheGenerator => true | _ => false end.
Theorem C92_generator : forall h w w', generator G w = generator G w' ->
  map snd (filter (fun p => with_generator (fst p)) (combine h (fst (rvs_calls h w)))) = fst (rvs_calls (filter with_generator h) w') /\
  generator G (snd (rvs_calls h w)) = generator G (snd (rvs_calls (filter with_generator h) w')).
Proof.
  induction h as [|c h IH]; intros w w' E; [split; [reflexivity|exact E]|]. cbn [RngModel.rvs_calls filter]. rewrite rvs_with.
  assert (Q : with_generator c = true \/ with_generator c = false) by (destruct (with_generator c); auto). destruct Q as [Q|Q].
  - rewrite Q. cbn [RngModel.rvs_calls]. rewrite rvs_with. assert (C : c_seed c = TheGenerator) by (unfold with_generator in Q; destruct (c_seed c); congruence). rewrite C. cbn [RngModel.with_rng]. rewrite <- E.
    destruct (rvs_rng (c_dist F c) (c_size F c) (generator G w)) as [v g]. set (w1 := mkSession G g (opened G w)). set (w1' := mkSession G g (opened G w')).
    destruct (IH w1 w1' eq_refl) as [I1 I2]. destruct (rvs_calls h w1) as [vs w2]. destruct (rvs_calls (filter with_generator h) w1') as [us w3]. cbn [fst snd combine filter map] in *. rewrite Q. cbn [map snd]. split; [congruence|exact I2].
  - rewrite Q. assert (G1 : generator G (snd (with_rng (c_seed c) (rvs_rng (c_dist F c) (c_size F c)) w)) = generator G w') by (unfold with_generator in Q; destruct (c_seed c); [exact E|exact E|discriminate]).
    destruct (with_rng (c_seed c) (rvs_rng (c_dist F c) (c_size F c)) w) as [v w1]. cbn [snd] in G1. destruct (IH w1 w' G1) as [I1 I2].
    destruct (rvs_calls h w1) as [vs w2]. cbn [fst snd combine filter map] in *. rewrite Q. auto.
Qed.
(** Without a random state every call has a generator of its own, whatever the distribution: the n-th such call of a session
    works with the n-th generator opened. *)
Definition without_seed (c : call F) : bool := match c_seed c with NoSeed => true | _ => false end.
Theorem C92_no_seed : forall h d s w,
  last (fst (rvs_calls (h ++ [mkCall d s NoSeed]) w)) (Err ValueError) =
  fst (rvs d s TheGenerator (mkSession G (os_rng (opened G w + length (filter without_seed h))) 0)).
Proof.
  intros h d s w. enough (A : forall w, fst (rvs_calls (h ++ [mkCall d s NoSeed]) w) = (fst (rvs_calls h w) ++ [fst (rvs_rng d s (os_rng (opened G w + length (filter without_seed h))))])%list).
  { rewrite A, last_last, rvs_with, fst_with. reflexivity. }
  clear w. induction h as [|c h IH]; intro w.
  - cbn [app RngModel.rvs_calls c_dist c_size RngModel.c_seed filter length]. rewrite rvs_with, Nat.add_0_r. reflexivity.
  - cbn [app RngModel.rvs_calls filter].
    assert (O1 : opened G (snd (rvs (c_dist F c) (c_size F c) (c_seed c) w)) = if without_seed c then S (opened G w) else opened G w).
    { rewrite rvs_with. unfold without_seed. destruct (c_seed c); try reflexivity. cbn. destruct (rvs_rng _ _ _). reflexivity. }
    destruct (rvs (c_dist F c) (c_size F c) (c_seed c) w) as [v w1]. cbn [snd] in O1. specialize (IH w1). rewrite O1 in IH.
    destruct (rvs_calls (h ++ [mkCall d s NoSeed]) w1) as [vs w2]. destruct (rvs_calls h w1) as [us w3]. cbn [fst app] in *. rewrite IH.
    destruct (without_seed c); cbn [length]; [rewrite Nat.add_succ_r|]; reflexivity.
Qed.

(** One call advances the Generator it is given by exactly one draw: that of the family, or the uniform numbers of a truncated
    distribution or a hurdle; censoring adds none. *)
Fixpoint uncensored (d : dist) : dist := match d with Censored _ d _ _ => uncensored d | _ => d end.
Theorem C92_state : forall d s w, let after := generator G (snd (rvs d s TheGenerator w)) in
  match uncensored d with
  | Family _ f => after = snd (family_rvs f s (generator G w))
  | Truncated _ _ _ _ | Hurdle _ _ _ => after = snd (uniform s (generator G w))
  | Mixture _ _ _ | Censored _ _ _ _ => True
  end.
Proof.
  intros d s w. cbv zeta. rewrite rvs_with. cbn [RngModel.with_rng]. enough (A : match uncensored d with
    | Family _ f => snd (rvs_rng d s (generator G w)) = snd (family_rvs f s (generator G w))
    | Truncated _ _ _ _ | Hurdle _ _ _ => snd (rvs_rng d s (generator G w)) = snd (uniform s (generator G w)) | _ => True end).
  { destruct (rvs_rng d s (generator G w)). exact A. }
  induction d as [f|d l u _|d l u IH|d p _|ds ws _] using dist_ind2; cbn [uncensored RngModel.rvs_rng]; [| | | |exact I].
  - destruct (family_rvs f s (generator G w)). reflexivity.
  - destruct (uniform s (generator G w)). reflexivity.
  - destruct (rvs_rng d s (generator G w)) as [v g]. destruct (uncensored d); exact IH || exact I.
  - destruct (uniform s (generator G w)). reflexivity.
Qed.
(** The sample of a censored distribution is that of its base with every value clipped, with the same random state. *)
Theorem C92_censored : forall d l u s r w v, fst (rvs (Censored F d l u) s r w) = Ok v <->
  exists b, fst (rvs d s r w) = Ok b /\ shape v = shape b /\ data v = map (fun x => np_clip x l u) (data b).
Proof.
  intros d l u s r w v. cbn [RngModel.rvs]. destruct (rvs d s r w) as [[b|e] w']; cbn; split.
  - intro E. injection E as <-. exists b. auto.
  - intros (b' & E & S1 & D1). injection E as <-. destruct v as [sv dv]. cbn in *. subst. reflexivity.
  - discriminate.
  - intros (b & E & _). discriminate.
Qed.

(** The components of a mixture draw one after the other from one generator, in the order they were given: each from the state
    the one before left, as in calls of their own with that generator; those not chosen are not called. *)
Definition component_calls (ds : list dist) (chosen : list nat) : list (call F) :=
  map (fun p => mkCall (snd p) (Count (length (filter (Nat.eqb (fst p)) chosen))) TheGenerator)
      (filter (fun p => negb (Nat.eqb (length (filter (Nat.eqb (fst p)) chosen)) 0)) (combine (seq 0 (length ds)) ds)).
Theorem C92_components : forall ds ws s r w idx g v, choice (length ds) ws s (used r w) = (Ok idx, g) ->
  fst (rvs (Mixture F ds ws) s r w) = Ok v ->
  exists vs, fst (rvs_calls (component_calls ds (data idx)) (mkSession G g 0)) = map Ok vs /\ data v = concat (map data vs) /\
    (r = TheGenerator -> generator G (snd (rvs (Mixture F ds ws) s r w)) = generator G (snd (rvs_calls (component_calls ds (data idx)) (mkSession G g 0)))).
Proof.
  intros ds ws s r w idx g v Ec E. rewrite rvs_with in *. rewrite fst_with, rvs_rng_mixture in E. rewrite Ec in E.
  assert (Gen : forall ds i g l g', component_loop (data idx) i ds g = (Ok l, g') ->
    rvs_calls (map (fun p => mkCall (snd p) (Count (length (filter (Nat.eqb (fst p)) (data idx)))) TheGenerator)
      (filter (fun p => negb (Nat.eqb (length (filter (Nat.eqb (fst p)) (data idx))) 0)) (combine (seq i (length ds)) ds))) (mkSession G g 0) = (map Ok l, mkSession G g' 0)).
  { clear. induction ds as [|d ds IH]; intros i g l g' E; cbn [component_loop] in E; [injection E as <- <-; reflexivity|]. cbv zeta in E.
    cbn [length seq combine filter fst]. destruct (Nat.eqb (length (filter (Nat.eqb i) (data idx))) 0); cbn [negb]; [apply IH, E|].
    cbn [map fst snd RngModel.rvs_calls c_dist c_size RngModel.c_seed]. rewrite rvs_with. cbn [RngModel.with_rng generator opened].
    destruct (rvs_rng d (Count (length (filter (Nat.eqb i) (data idx)))) g) as [[v|] g1]; [|discriminate].
    destruct (component_loop (data idx) (S i) ds g1) as [[l1|] g2] eqn:El; [|discriminate]. cbn in E. injection E as <- <-. rewrite (IH _ _ _ _ El). reflexivity. }
  destruct (component_loop (data idx) 0 ds g) as [[l|] g2] eqn:El; [|discriminate]. cbn [fst bind] in E. unfold component_calls. rewrite (Gen _ _ _ _ _ El). exists l. split; [reflexivity|]. split.
  - unfold concatenate in E. destruct l as [|x l]; [discriminate|]. destruct (forallb _ (x :: l)); [|discriminate]. injection E as <-. reflexivity.
  - intros ->. cbn [RngModel.with_rng snd used] in *. rewrite rvs_rng_mixture, Ec, El. reflexivity.
Qed.
End Proofs.

(* ---------------- examples ---------------- *)
(** A generator that counts, one family that returns the count, choices that alternate. *)
Definition ex_fill {A} (f : nat -> A) (s : size) : nd A := mkNd (asked s) (map f (seq 0 (total (asked s)))).
Definition ex_family (f : nat) (s : size) (g : nat) : nd xr * nat := (ex_fill (fun i => Fin (INR (f + g + i))) s, (g + total (asked s))%nat).
Definition ex_uniform (s : size) (g : nat) : nd xr * nat := (ex_fill (fun i => Fin (/ INR (2 + g + i))) s, (g + total (asked s))%nat).
Definition ex_choice (n : nat) (_ : list xr) (s : size) (g : nat) : res (nd nat) * nat := (Ok (ex_fill (fun i => (g + i) mod n)%nat s), (g + 1)%nat).
Definition ex_tree : dist nat := Censored nat (Truncated nat (Hurdle nat (Family nat 3%nat) (Fin (1 / 2))) (Fin 0) (Fin 9)) (Fin 1) (Fin 5).
Definition ex_mixture : dist nat := Mixture nat [Family nat 1%nat; ex_tree; Mixture nat [Family nat 7%nat] [Fin 1]] [Fin (1 / 2); Fin (1 / 4); Fin (1 / 4)].
Example C92_applies : shapes_kept nat nat ex_family ex_uniform /\ choices_kept nat ex_choice /\ filled_in_order nat nat ex_family ex_uniform /\
  searches_end nat (fun _ q => Ok q) /\ without_mixtures nat ex_tree /\ proper nat ex_mixture /\ sampled_as_mixture nat ex_mixture /\
  data (match fst (ex_choice 3%nat [] (Dims [2; 3]%nat) 0%nat) with Ok v => v | Err _ => mkNd [] [] end) = [0; 1; 2; 0; 1; 2]%nat.
Proof.
  assert (Fl : forall A (f : nat -> A) s, is_array (ex_fill f s) /\ shape (ex_fill f s) = asked s) by (intros; split; [unfold is_array; cbn; rewrite map_length, seq_length; reflexivity|reflexivity]).
  split; [split; intros; apply Fl|]. split.
  { intros n ws s g Hn. eexists. split; [reflexivity|]. split; [apply Fl|]. split; [reflexivity|]. cbn. apply Forall_forall. intros i I. apply in_map_iff in I. destruct I as (k & <- & _). apply Nat.mod_upper_bound. lia. }
  split. { assert (E : forall l, total (asked (Dims l)) = total (asked (Count (total l)))) by (intro l; cbn [asked]; unfold total at 2; cbn [fold_right]; rewrite Nat.mul_1_r; reflexivity).
    split; intros; unfold ex_family, ex_uniform, ex_fill; cbn [fst data]; rewrite E; reflexivity. }
  split; [intros d q; exists q; reflexivity|]. split; [exact I|]. split; [|split; [exact I|reflexivity]].
  repeat constructor; discriminate.
Qed.

Print Assumptions C90_quantiles_any_shape.
Print Assumptions C90_mixture_matrix_refuted.
Print Assumptions C92_shape.
Print Assumptions C92_vector.
Print Assumptions C92_mixture.
Print Assumptions C92_mixture_shape_refuted.
Print Assumptions C92_truncated_mixture_refuted.
Print Assumptions C92_reshaped.
Print Assumptions C92_seed.
Print Assumptions C92_generator.
Print Assumptions C92_no_seed.
Print Assumptions C92_state.
Print Assumptions C92_censored.
Print Assumptions C92_components.
