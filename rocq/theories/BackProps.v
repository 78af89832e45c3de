(** C57: new priors are fits of the right samples. C58: the projection, and what ppe does to the user's model. *)
From Coq Require Import List Bool String Arith ZArith Lia Permutation Sorted Reals Lra.
From Verif Require Import Base XR BackModel SelProps BackSpec.
Import ListNotations.

(* ------------------------------------------------------------ heap facts *)
Lemma nth_error_same : forall (A : Type) (l m : list A), (forall i, nth_error l i = nth_error m i) -> l = m.
Proof.
  induction l as [|a l IH]; intros [|b m] H; auto.
  - specialize (H 0%nat). discriminate.
  - specialize (H 0%nat). discriminate.
  - pose proof (H 0%nat) as H0. injection H0 as ->. f_equal. apply IH. intro i. exact (H (S i)).
Qed.
Lemma forall2_weaken : forall (A B : Type) (P Q : A -> B -> Prop) xs ys, (forall a b, P a b -> Q a b) -> Forall2 P xs ys -> Forall2 Q xs ys.
Proof. intros A B P Q xs ys I H. induction H; constructor; auto. Qed.
Section Heap.
Variable Obj : Type.
Implicit Type h : heap Obj.

Lemma cell_put_eq : forall h r o, cell (put h r o) r = o.
Proof. intros. cbn. now rewrite Nat.eqb_refl. Qed.
Lemma cell_put_ne : forall h r o q, q <> r -> cell (put h r o) q = cell h q.
Proof. intros. cbn. destruct (Nat.eqb_spec q r); [contradiction|reflexivity]. Qed.
Lemma next_put : forall h r o, next (put h r o) = next h. Proof. reflexivity. Qed.

Lemma alloc_all_spec : forall os h l h', alloc_all h os = (l, h') ->
  l = seq (next h) (List.length os) /\ next h' = (next h + List.length os)%nat /\
  (forall q, (q < next h)%nat -> cell h' q = cell h q) /\
  (forall i, (i < List.length os)%nat -> nth_error os i = Some (cell h' (next h + i)%nat)).
Proof.
  induction os as [|o os IH]; intros h l h' H; cbn in H.
  - injection H as <- <-. cbn. repeat split; try lia; auto; intros; lia.
  - destruct (alloc_all _ os) as [l1 h2] eqn:E. injection H as <- <-.
    destruct (IH _ _ _ E) as (A & B & C & D). cbn in A, B, C, D. repeat split.
    + cbn. now rewrite A.
    + cbn. lia.
    + intros q Hq. rewrite C by lia. cbn. destruct (Nat.eqb_spec q (next h)); [lia|reflexivity].
    + intros i Hi. destruct i as [|i]; cbn.
      * rewrite C by lia. rewrite Nat.add_0_r. cbn. now rewrite Nat.eqb_refl.
      * cbn in Hi. rewrite (D i) by lia. do 2 f_equal. lia.
Qed.

Lemma alloc_all_map : forall os h l h', alloc_all h os = (l, h') -> map (cell h') l = os.
Proof.
  intros os h l h' H. destruct (alloc_all_spec _ _ _ _ H) as (-> & _ & _ & D).
  apply nth_error_same. intro i. rewrite nth_error_map.
  destruct (Nat.lt_ge_cases i (List.length os)) as [L|L].
  - rewrite (nth_error_nth' _ 0%nat) by now rewrite seq_length. rewrite seq_nth by lia. cbn. now rewrite (D i L).
  - rewrite (proj2 (nth_error_None _ i)) by now rewrite seq_length. cbn. symmetry. now apply nth_error_None.
Qed.
End Heap.

(* ------------------------------------------------------------ one call of mle *)
Section Mle.
Variables (Obj Sample : Type).
Variable cls : Obj -> string.
Variable fit : Obj -> Sample -> res (Obj * xr).
Variable argsort : list xr -> list nat.
Hypothesis argsort_ok : forall l, is_argsort l (argsort l).
Implicit Type h : heap Obj.

Lemma fit_loop_frame : forall refs h s h' r, fit_loop Obj Sample fit h (map Inst refs) s = (h', r) ->
  next h' = next h /\ forall q, ~ In q refs -> cell h' q = cell h q.
Proof.
  induction refs as [|a refs IH]; intros h s h' r H; cbn in H.
  - injection H as <- <-. auto.
  - destruct (fit (cell h a) s) as [[o l]|e].
    + destruct (fit_loop _ _ _ (put h a o) _ s) as [h1 [ls|e]] eqn:E; injection H as <- <-;
      destruct (IH _ _ _ _ E) as [A B]; (split; [exact A|]); intros q Hq; rewrite B by (cbn in Hq; tauto);
      apply cell_put_ne; cbn in Hq; intuition congruence.
    + injection H as <- <-. auto.
Qed.

Lemma fit_loop_spec : forall refs h s h' ls, NoDup refs -> fit_loop Obj Sample fit h (map Inst refs) s = (h', Ok ls) ->
  Forall2 (fun r l => fit (cell h r) s = Ok (cell h' r, l)) refs ls.
Proof.
  induction refs as [|a refs IH]; intros h s h' ls ND H; cbn in H.
  - injection H as <- <-. constructor.
  - inversion ND as [|? ? NI ND']; subst. destruct (fit (cell h a) s) as [[o l]|e] eqn:F; [|discriminate].
    destruct (fit_loop _ _ _ (put h a o) _ s) as [h1 [l1|e]] eqn:E; [|discriminate]. injection H as <- <-.
    constructor.
    + rewrite F. destruct (fit_loop_frame _ _ _ _ _ E) as [_ B]. rewrite (B a NI), cell_put_eq. reflexivity.
    + assert (Q := IH _ _ _ _ ND' E). clear -Q NI.
      induction Q as [|x y xs ys A _ IHQ]; constructor.
      * rewrite <- A. rewrite cell_put_ne; [reflexivity|]. intro; subst; apply NI; now left.
      * apply IHQ. intro; apply NI; now right.
Qed.

Lemma mle_frame : forall refs h s h' r, mle Obj Sample cls fit argsort h (map Inst refs) s = (h', r) ->
  next h' = next h /\ forall q, ~ In q refs -> cell h' q = cell h q.
Proof.
  intros refs h s h' r H. unfold mle in H. destruct (all_valid _ _ _ _); [|injection H as <- <-; auto].
  destruct (fit_loop _ _ _ h _ s) as [h1 [l|e]] eqn:E; injection H as <- <-; exact (fit_loop_frame _ _ _ _ _ E).
Qed.

Lemma forall2_nth_error : forall A B (P : A -> B -> Prop) xs ys, Forall2 P xs ys ->
  forall i x, nth_error xs i = Some x -> exists y, nth_error ys i = Some y /\ P x y.
Proof.
  intros A B P xs ys H. induction H; intros [|i] z Hz; cbn in *; try discriminate; eauto.
  injection Hz as <-. eauto.
Qed.

(** The first candidate reported is a best fit among the candidates. *)
Lemma mle_pick : forall refs h s h' idx c, NoDup refs ->
  mle Obj Sample cls fit argsort h (map Inst refs) s = (h', Ok idx) -> pick (map Inst refs) idx = Ok c ->
  exists r, c = Inst r /\ In r refs /\ best_fit Obj Sample fit (map (cell h) refs) s (cell h' r).
Proof using argsort_ok.
  intros refs h s h' idx c ND H P. unfold mle in H. destruct (all_valid _ _ _ _); [|discriminate].
  destruct (fit_loop _ _ _ h _ s) as [h1 [ls|e]] eqn:E; [|discriminate]. injection H as <- <-.
  assert (F := fit_loop_spec _ _ _ _ _ ND E).
  destruct (argsort_ok ls) as [PE SS]. destruct (argsort ls) as [|i rest] eqn:AE; [discriminate|]. cbn in P.
  rewrite nth_error_map in P. destruct (nth_error refs i) as [r|] eqn:N; [|discriminate]. cbn in P. injection P as <-.
  exists r. split; [reflexivity|]. split; [exact (nth_error_In _ _ N)|].
  destruct (forall2_nth_error _ _ _ _ _ F _ _ N) as [l [Nl Fl]].
  exists (cell h r), l. split; [apply in_map; exact (nth_error_In _ _ N)|]. split; [exact Fl|].
  intros c' Hc. apply in_map_iff in Hc. destruct Hc as [r' [<- Hr]]. apply In_nth_error in Hr. destruct Hr as [j Nj].
  destruct (forall2_nth_error _ _ _ _ _ F _ _ Nj) as [l' [Nl' Fl']]. exists (cell h1 r'), l'. split; [exact Fl'|].
  assert (J : In j (i :: rest)).
  { eapply Permutation_in; [symmetry; exact PE|]. apply in_seq. split; [lia|]. cbn. apply nth_error_Some. congruence. }
  assert (Vi : nth i ls NaN = l) by (apply nth_error_nth with (d := NaN) in Nl; exact Nl).
  assert (Vj : nth j ls NaN = l') by (apply nth_error_nth with (d := NaN) in Nl'; exact Nl').
  destruct J as [->|J].
  - rewrite Nl in Nl'. injection Nl' as <-. destruct l as [x| | |]; [right|right|right|now left]; cbn; try reflexivity.
    apply xleb_fin. lra.
  - inversion SS as [|? ? _ FA]; subst. rewrite Forall_forall in FA. exact (FA _ J).
Qed.

(* ------------------------------------------------------------ posterior_to_prior *)
Variable default : string -> Obj.
(** The references a variable's candidates stand for. *)
Definition own_refs (nf : families) (var : string) (d : nat) : list nat :=
  d :: match nf with FList l => l | FDict t => dict_get t var | _ => [] end.

Lemma candidates_spec : forall h var d nf h1 cs, (d < next h)%nat ->
  candidates_idata Obj cls default h var d nf = (h1, cs) ->
  NoDup (own_refs nf var d) -> (forall r, In r (own_refs nf var d) -> (r < next h)%nat) ->
  (next h <= next h1)%nat /\ (forall q, (q < next h)%nat -> cell h1 q = cell h q) /\
  exists refs, cs = map Inst refs /\ NoDup refs /\
    (forall r, In r refs -> In r (own_refs nf var d) \/ (next h <= r < next h1)%nat) /\
    map (cell h1) refs = offered Obj cls default h nf var (cell h d).
Proof.
  intros h var d nf h1 cs Hd H ND LT. destruct nf as [| | l | t |]; cbn [candidates_idata] in H.
  - injection H as <- <-. repeat split; auto. exists [d]. repeat split; auto.
  - destruct (alloc_all h (map default auto_names)) as [alt h2] eqn:E. injection H as <- <-.
    destruct (alloc_all_spec _ _ _ _ _ E) as (A & B & C & _). pose proof (alloc_all_map _ _ _ _ _ E) as M.
    split; [lia|]. split; [exact C|].
    exists (d :: filter (fun a => negb (String.eqb (cls (cell h2 d)) (cls (cell h2 a)))) alt).
    split; [reflexivity|]. split; [|split].
    + constructor.
      * intro I. apply filter_In in I. destruct I as [I _]. rewrite A in I. apply in_seq in I. lia.
      * apply NoDup_filter. rewrite A. apply seq_NoDup.
    + intros r [<-|I]; [left; now left|]. right. apply filter_In in I. destruct I as [I _]. rewrite A in I.
      apply in_seq in I. lia.
    + cbn [map]. unfold offered. rewrite (C d Hd). f_equal.
      change [default "Normal"; default "HalfNormal"; default "Gamma"]%string with (map default auto_names).
      rewrite <- M. clear. induction alt as [|a alt IH]; [reflexivity|]. cbn.
      destruct (String.eqb (cls (cell h d)) (cls (cell h2 a))); cbn; [exact IH|now rewrite IH].
  - injection H as <- <-. repeat split; auto. exists (d :: l). repeat split; auto.
  - injection H as <- <-. repeat split; auto. exists (d :: dict_get t var). repeat split; auto.
  - injection H as <- <-. repeat split; auto. exists [d]. repeat split; auto.
Qed.

(** References that the loop may touch. *)
Definition model_refs (nf : families) (mi : list (string * nat)) : list nat := flat_map (fun '(v, d) => own_refs nf v d) mi.

Lemma nodup_app_l : forall (A : Type) (l m : list A), NoDup (l ++ m) -> NoDup l.
Proof. induction l; cbn; intros m H; constructor; inversion H; subst; eauto. intro I. apply H2. apply in_or_app. now left. Qed.
Lemma nodup_app_r : forall (A : Type) (l m : list A), NoDup (l ++ m) -> NoDup m.
Proof. induction l; cbn; intros m H; [exact H|]. inversion H; subst. eauto. Qed.
Lemma nodup_app_disj : forall (A : Type) (l m : list A) x, NoDup (l ++ m) -> In x l -> In x m -> False.
Proof.
  induction l; cbn; intros m x H I J; [exact I|]. inversion H; subst. destruct I as [->|I]; [|eauto].
  apply H2. apply in_or_app. now right.
Qed.

(** One variable. *)
Lemma step_spec : forall posterior nf var d rest h h' new,
  back_fitting_idata Obj Sample cls default fit argsort posterior nf ((var, d) :: rest) h = (h', Ok new) ->
  NoDup (own_refs nf var d) -> (forall r, In r (own_refs nf var d) -> (r < next h)%nat) ->
  exists h2 s r tl, posterior var = Ok s /\ new = (var, Inst r) :: tl /\
    back_fitting_idata Obj Sample cls default fit argsort posterior nf rest h2 = (h', Ok tl) /\
    (next h <= next h2)%nat /\ (r < next h2)%nat /\
    (forall q, (q < next h)%nat -> ~ In q (own_refs nf var d) -> cell h2 q = cell h q) /\
    (In r (own_refs nf var d) \/ (next h <= r)%nat) /\
    best_fit Obj Sample fit (offered Obj cls default h nf var (cell h d)) s (cell h2 r).
Proof using argsort_ok default cls.
  intros posterior nf var d rest h h' new H ND LT. cbn [back_fitting_idata] in H.
  assert (Hd : (d < next h)%nat) by (apply LT; now left).
  destruct (candidates_idata _ _ _ h var d nf) as [h1 cs] eqn:C.
  destruct (candidates_spec _ _ _ _ _ _ Hd C ND LT) as (N1 & K1 & refs & -> & NDr & IN & OF).
  destruct (posterior var) as [s|e]; [|discriminate].
  destruct (mle _ _ _ _ _ h1 (map Inst refs) s) as [h2 [idx|e]] eqn:M; [|discriminate].
  destruct (mle_frame _ _ _ _ _ M) as [N2 K2].
  assert (PK : exists c, pick (map Inst refs) idx = Ok c /\
     exists tl, back_fitting_idata Obj Sample cls default fit argsort posterior nf rest h2 = (h', Ok tl) /\ new = (var, c) :: tl).
  { assert (G : forall c, (match back_fitting_idata Obj Sample cls default fit argsort posterior nf rest h2 with
                           | (h3, Ok l) => (h3, Ok ((var, c) :: l)) | (h3, Err e) => (h3, Err e) end) = (h', Ok new) ->
                exists tl, back_fitting_idata Obj Sample cls default fit argsort posterior nf rest h2 = (h', Ok tl) /\ new = (var, c) :: tl).
    { intros c G. destruct (back_fitting_idata _ _ _ _ _ _ _ _ rest h2) as [h3 [l|e]]; [|discriminate].
      injection G as <- <-. eauto. }
    destruct nf; cbn [candidates_idata] in C;
    try (destruct (pick (map Inst refs) idx) as [c|e]; [|discriminate]; exists c; split; [reflexivity|exact (G _ H)]).
    injection C as <- C. destruct refs as [|r0 [|? ?]]; try discriminate. injection C as <-.
    exists (Inst d). split; [|exact (G _ H)].
    unfold mle in M. destruct (all_valid _ _ _ _); [|discriminate].
    destruct (fit_loop _ _ _ h _ s) as [h3 [ls|e]] eqn:E; [|discriminate]. injection M as <- <-.
    pose proof (fit_loop_spec [d] _ _ _ _ NDr E) as F. destruct ls as [|l0 [|l1 lr]]; [inversion F| |inversion F as [|a1 b1 c1 d1 Z1 Z2]; inversion Z2].
    destruct (argsort_ok [l0]) as [PE _]. apply Permutation_sym, Permutation_length_1_inv in PE. cbn in PE. now rewrite PE. }
  destruct PK as [c [PK [tl [BF ->]]]].
  destruct (mle_pick _ _ _ _ _ _ NDr M PK) as [r [-> [Ir B]]]. rewrite OF in B.
  exists h2, s, r, tl. repeat split; auto.
  - lia.
  - destruct (IN _ Ir) as [I|I]; [apply LT in I; lia|lia].
  - intros q Hq NI. rewrite K2, K1; auto. intro I. destruct (IN _ I) as [I'|I']; [contradiction|lia].
  - destruct (IN _ Ir) as [I|I]; [now left|right; lia].
Qed.

(** Nothing else is touched, whatever the outcome. *)
Lemma back_fitting_frame : forall posterior nf mi h h' r,
  back_fitting_idata Obj Sample cls default fit argsort posterior nf mi h = (h', r) ->
  (forall q, In q (model_refs nf mi) -> (q < next h)%nat) ->
  forall q, (q < next h)%nat -> ~ In q (model_refs nf mi) -> cell h' q = cell h q.
Proof using default cls.
  intros posterior nf mi. induction mi as [|[var d] mi IH]; intros h h' r H LT q Hq NI.
  - cbn in H. injection H as <- <-. reflexivity.
  - cbn [back_fitting_idata] in H.
    assert (Hd : (d < next h)%nat) by (apply LT; now left).
    assert (K : forall h1 cs, candidates_idata Obj cls default h var d nf = (h1, cs) ->
      (next h <= next h1)%nat /\ cell h1 q = cell h q /\ exists refs, cs = map Inst refs /\ ~ In q refs).
    { intros h1 cs C. destruct nf as [| | l | t |]; cbn [candidates_idata] in C;
      cbn [model_refs flat_map own_refs app] in NI; try rewrite in_app_iff in NI;
      try (injection C as <- <-; split; [lia|split; [reflexivity|]]).
      - exists [d]. split; [reflexivity|]. cbn in NI |- *. intuition.
      - destruct (alloc_all h (map default auto_names)) as [alt h2] eqn:E. injection C as <- <-.
        destruct (alloc_all_spec _ _ _ _ _ E) as (A & B & C & _). split; [lia|]. split; [exact (C _ Hq)|].
        exists (d :: filter (fun a => negb (String.eqb (cls (cell h2 d)) (cls (cell h2 a)))) alt). split; [reflexivity|].
        intros [->|I]; [apply NI; now left|]. apply filter_In in I. destruct I as [I _]. rewrite A in I. apply in_seq in I. lia.
      - exists (d :: l). split; [reflexivity|]. cbn in NI |- *. rewrite in_app_iff in NI. tauto.
      - exists (d :: dict_get t var). split; [reflexivity|]. cbn in NI |- *. rewrite in_app_iff in NI. tauto.
      - exists [d]. split; [reflexivity|]. cbn in NI |- *. intuition. }
    destruct (candidates_idata _ _ _ h var d nf) as [h1 cs] eqn:C.
    destruct (K _ _ eq_refl) as (N1 & K1 & refs & -> & NIr).
    destruct (posterior var) as [s|e]; [|injection H as <- <-; exact K1].
    destruct (mle _ _ _ _ _ h1 (map Inst refs) s) as [h2 rr] eqn:M.
    destruct (mle_frame _ _ _ _ _ M) as [N2 K2].
    assert (KK : cell h2 q = cell h q) by (rewrite K2; auto).
    destruct rr as [idx|e]; [|injection H as <- <-; exact KK].
    assert (F : forall h3 x, back_fitting_idata Obj Sample cls default fit argsort posterior nf mi h2 = (h3, x) -> cell h3 q = cell h q).
    { intros h3 x E. rewrite <- KK. eapply IH; [exact E| |lia|].
      - intros p I. specialize (LT p). cbn [model_refs flat_map] in LT. rewrite in_app_iff in LT. specialize (LT (or_intror I)). lia.
      - intro I. apply NI. cbn [model_refs flat_map]. rewrite in_app_iff. now right. }
    destruct (match nf with NoFamilies => _ | _ => _ end) as [c|e]; [|injection H as <- <-; exact KK].
    destruct (back_fitting_idata _ _ _ _ _ _ _ _ mi h2) as [h3 [l|e]] eqn:E; injection H as <- <-; exact (F _ _ eq_refl).
Qed.

Lemma map_cell_ext : forall (h1 h2 : heap Obj) l, (forall r, In r l -> cell h1 r = cell h2 r) -> map (cell h1) l = map (cell h2) l.
Proof. intros. apply map_ext_in. auto. Qed.

Lemma back_fitting_spec : forall posterior nf mi h0 h h' new,
  back_fitting_idata Obj Sample cls default fit argsort posterior nf mi h = (h', Ok new) ->
  NoDup (model_refs nf mi) -> (forall r, In r (model_refs nf mi) -> (r < next h)%nat) ->
  (forall r, In r (model_refs nf mi) -> cell h r = cell h0 r) ->
  Forall2 (fun '(var, d) '(var', c) => var' = var /\ exists r s, c = Inst r /\ posterior var = Ok s /\
             best_fit Obj Sample fit (offered Obj cls default h0 nf var (cell h0 d)) s (cell h' r)) mi new.
Proof using argsort_ok default cls.
  intros posterior nf mi. induction mi as [|[var d] mi IH]; intros h0 h h' new H ND LT EQ.
  - cbn in H. injection H as <- <-. constructor.
  - cbn [model_refs flat_map] in ND, LT, EQ.
    destruct (step_spec _ _ _ _ _ _ _ _ H) as (h2 & s & r & tl & P & -> & BF & N & Lr & K & I & B).
    + exact (nodup_app_l _ _ _ ND).
    + intros q Hq. apply LT. apply in_or_app. now left.
    + assert (LT2 : forall q, In q (model_refs nf mi) -> (q < next h2)%nat).
      { intros q Hq. assert (q < next h)%nat by (apply LT, in_or_app; now right). lia. }
      assert (KR : cell h' r = cell h2 r).
      { eapply back_fitting_frame; [exact BF|exact LT2|exact Lr|].
        intro J. destruct I as [I|I].
        - exact (nodup_app_disj _ _ _ _ ND I J).
        - assert (r < next h)%nat by (apply LT, in_or_app; now right). lia. }
      constructor.
      * split; [reflexivity|]. exists r, s. split; [reflexivity|]. split; [exact P|].
        rewrite KR. replace (offered Obj cls default h0 nf var (cell h0 d)) with (offered Obj cls default h nf var (cell h d)); [exact B|].
        unfold offered. rewrite (EQ d) by (cbn; now left). f_equal.
        destruct nf; try reflexivity; apply map_cell_ext; intros q Hq; apply EQ, in_or_app; left; cbn; now right.
      * apply IH with (h := h2); auto.
        -- exact (nodup_app_r _ _ _ ND).
        -- intros q Hq. rewrite <- EQ by (apply in_or_app; now right). apply K.
           ++ apply LT, in_or_app. now right.
           ++ intro J. exact (nodup_app_disj _ _ _ _ ND J Hq).
Qed.

(* ------------------------------------------------------------ extraction *)
Lemma lookup_ref_in : forall l k r, lookup_ref l k = Some r -> In (k, r) l.
Proof.
  induction l as [|[k' v] l IH]; cbn; intros k r H; [discriminate|].
  destruct (lookup_ref l k) eqn:E.
  - injection H as <-. right. now apply IH.
  - destruct (String.eqb_spec k' k) as [->|]; [|discriminate]. injection H as <-. now left.
Qed.

Lemma extract_loop_spec : forall table rvs h h' mi, extract_loop Obj table rvs h = (h', Ok mi) ->
  (forall k r, In (k, r) table -> (r < next h)%nat) ->
  map snd mi = seq (next h) (List.length rvs) /\ next h' = (next h + List.length rvs)%nat /\
  (forall q, (q < next h)%nat -> cell h' q = cell h q) /\
  Forall2 (fun '(v, n) '(v', d) => v' = v /\ exists r, In (n, r) table /\ cell h' d = cell h r) rvs mi.
Proof.
  intros table rvs. induction rvs as [|[v n] rvs IH]; intros h h' mi H LT; cbn in H.
  - injection H as <- <-. repeat split; try (cbn; lia); auto.
  - destruct (lookup_ref table n) as [r|] eqn:E; [|discriminate].
    destruct (extract_loop _ table rvs _) as [h2 [l|e]] eqn:X; [|discriminate]. injection H as <- <-.
    assert (Ir := lookup_ref_in _ _ _ E).
    destruct (IH _ _ _ X) as (A & B & C & D).
    { intros k q I. cbn. specialize (LT _ _ I). lia. }
    cbn in A, B, C. split; [|split; [|split]].
    + cbn. now rewrite A.
    + cbn. lia.
    + intros q Hq. rewrite C by lia. destruct (Nat.eqb_spec q (next h)); [lia|reflexivity].
    + constructor.
      * split; [reflexivity|]. exists r. split; [exact Ir|]. rewrite C by lia. now rewrite Nat.eqb_refl.
      * eapply forall2_weaken; [|exact D]. intros [v1 n1] [v2 d2] [-> [q [Iq Eq]]]. split; [reflexivity|].
        exists q. split; [exact Iq|]. rewrite Eq. cbn. destruct (Nat.eqb_spec q (next h)) as [->|]; [|reflexivity].
        specialize (LT _ _ Iq). lia.
Qed.

Lemma filter_excluded : forall all c, In c (filter (fun n => negb (existsb (String.eqb n) excluded)) all) -> In c all /\ ~ In c excluded.
Proof using.
  intros all c H. apply filter_In in H. destruct H as [A B]. split; [exact A|]. intro I.
  apply negb_true_iff in B. rewrite <- not_true_iff_false in B. apply B. apply existsb_exists. exists c.
  split; [exact I|apply String.eqb_refl].
Qed.

Lemma extract_spec : forall lower all rvs h h' mi,
  extract_preliz_distributions Obj default lower all rvs h = (h', Ok mi) ->
  NoDup (map snd mi) /\ (forall d, In d (map snd mi) -> (next h <= d < next h')%nat) /\ (next h <= next h')%nat /\
  (forall q, (q < next h)%nat -> cell h' q = cell h q) /\
  Forall2 (fun '(v, n) '(v', d) => v' = v /\ exists c, In c all /\ ~ In c excluded /\ lower c = n /\ cell h' d = default c) rvs mi.
Proof using argsort_ok.
  intros lower all rvs h h' mi H. unfold extract_preliz_distributions in H.
  set (names := filter _ all) in H. destruct (alloc_all h (map default names)) as [refs h1] eqn:A.
  destruct (alloc_all_spec _ _ _ _ _ A) as (A1 & A2 & A3 & A4). pose proof (alloc_all_map _ _ _ _ _ A) as AM.
  assert (LT : forall k r, In (k, r) (combine (map lower names) refs) -> (r < next h1)%nat).
  { intros k r I. apply in_combine_r in I. rewrite A1 in I. apply in_seq in I. lia. }
  destruct (extract_loop_spec _ _ _ _ _ H LT) as (B & C & D & E).
  split; [rewrite B; apply seq_NoDup|]. split; [|split; [lia|split]].
  - intros d I. rewrite B in I. apply in_seq in I. lia.
  - intros q Hq. rewrite D by lia. auto.
  - eapply forall2_weaken; [|exact E]. intros [v n] [v' d] [-> [r [I X]]]. split; [reflexivity|].
    rewrite X. clear -I AM. revert refs I AM. unfold names. clear names.
    assert (G : forall ns refs, (forall c, In c ns -> In c all /\ ~ In c excluded) -> In (n, r) (combine (map lower ns) refs) ->
                map (cell h1) refs = map default ns -> exists c, In c all /\ ~ In c excluded /\ lower c = n /\ cell h1 r = default c).
    { induction ns as [|a ns IH]; intros refs Q I M; [destruct I|]. destruct refs as [|b refs]; [destruct I|].
      cbn in I, M. injection M as M0 M1. destruct I as [I|I].
      - injection I as <- <-. exists a. destruct (Q a (or_introl eq_refl)). auto.
      - apply (IH refs); auto. intros c Hc. apply Q. now right. }
    intros refs I M. exact (G _ _ (filter_excluded all) I M).
Qed.

End Mle.

Lemma model_refs_in : forall nf mi r, In r (model_refs nf mi) <-> In r (map snd mi) \/ In r (users_objects nf (map fst mi)).
Proof.
  intros nf mi r. induction mi as [|[v d] mi IH]; cbn [model_refs flat_map map users_objects]; [cbn; tauto|].
  rewrite in_app_iff. unfold model_refs in IH. rewrite IH. unfold own_refs, users_objects. cbn [In fst snd flat_map]. rewrite in_app_iff.
  destruct nf; cbn; tauto.
Qed.

Lemma nodup_app : forall (A : Type) (l m : list A), NoDup l -> NoDup m -> (forall x, In x l -> ~ In x m) -> NoDup (l ++ m).
Proof.
  induction l; intros m H K D; cbn; [exact K|]. inversion H; subst. constructor.
  - intro I. apply in_app_or in I. destruct I; [contradiction|]. apply (D a); [now left|assumption].
  - apply IHl; auto. intros x Hx. apply D. now right.
Qed.

Lemma model_refs_nodup : forall nf mi, NoDup (map snd mi) -> NoDup (users_objects nf (map fst mi)) ->
  (forall d, In d (map snd mi) -> ~ In d (users_objects nf (map fst mi))) -> NoDup (model_refs nf mi).
Proof.
  intros nf mi. induction mi as [|[v d] mi IH]; intros A B D; [constructor|].
  cbn [map fst snd] in A, B, D. inversion A as [|? ? NI ND]; subst.
  change (users_objects nf (v :: map fst mi)) with
    ((match nf with FList l => l | FDict t => dict_get t v | _ => [] end) ++ users_objects nf (map fst mi))%list in B, D.
  change (model_refs nf ((v, d) :: mi)) with
    ((d :: match nf with FList l => l | FDict t => dict_get t v | _ => [] end) ++ model_refs nf mi)%list.
  set (u := match nf with FList l => l | FDict t => dict_get t v | _ => [] end) in *.
  assert (ND' : NoDup (model_refs nf mi)).
  { apply IH; [exact ND|exact (nodup_app_r _ _ _ B)|]. intros x Hx I. apply (D x); [now right|]. apply in_or_app. now right. }
  apply nodup_app; [|exact ND'|].
  - constructor; [|exact (nodup_app_l _ _ _ B)]. intro I. apply (D d); [now left|]. apply in_or_app. now left.
  - intros x [<-|I] J; apply model_refs_in in J; destruct J as [J|J].
    + contradiction.
    + apply (D d); [now left|]. apply in_or_app. now right.
    + apply (D x); [now right|]. apply in_or_app. now left.
    + exact (nodup_app_disj _ _ _ _ B I J).
Qed.


(* ------------------------------------------------------------ theorems *)
(** posterior_to_prior, from the model to the new priors: every variable keeps its place, its new prior is a best fit to
    the posterior sample of that very variable among the distributions offered for it, at the moment the result is read,
    that is after all variables have been processed; and no other object of the user is changed. The user's alternatives
    must not be offered twice; see the next theorem for what happens otherwise. *)
Theorem C57_posterior_to_prior : forall Obj Sample (cls : Obj -> string) default fit argsort lower all rvs
    (posterior : string -> res Sample) nf h h' new,
  (forall l, is_argsort l (argsort l)) ->
  separate Obj h nf (map fst rvs) ->
  posterior_fits Obj Sample cls default fit argsort lower all rvs posterior nf h = (h', Ok new) ->
  Forall2 (fun '(v, pymc_name) '(v', c) => v' = v /\ exists class r s,
      In class all /\ ~ In class ["Truncated"; "Censored"; "Hurdle"; "Mixture"]%string /\ lower class = pymc_name /\ c = Inst r /\ posterior v = Ok s /\
      best_fit Obj Sample fit (offered Obj cls default h nf v (default class)) s (cell h' r)) rvs new /\
  (forall q, (q < next h)%nat -> ~ In q (users_objects nf (map fst rvs)) -> cell h' q = cell h q).
Proof.
  intros Obj Sample cls default fit argsort lower all rvs posterior nf h h' new HA [SN SL] H. unfold posterior_fits in H.
  destruct (extract_preliz_distributions Obj default lower all rvs h) as [h1 [mi|e]] eqn:E; [|discriminate].
  destruct (extract_spec Obj argsort HA default _ _ _ _ _ _ E) as (A & B & N & C & D).
  assert (FST : map fst mi = map fst rvs).
  { clear -D. induction D as [|[v n] [v' d] xs ys [-> _] _ IH]; [reflexivity|]. cbn. now rewrite IH. }
  assert (ND : NoDup (model_refs nf mi)).
  { apply model_refs_nodup; [exact A|now rewrite FST|]. intros d Hd I. rewrite FST in I. apply SL in I. apply B in Hd. lia. }
  assert (LT : forall r, In r (model_refs nf mi) -> (r < next h1)%nat).
  { intros r I. apply model_refs_in in I. rewrite FST in I. destruct I as [I|I]; [apply B in I; lia|apply SL in I; lia]. }
  split.
  - pose proof (back_fitting_spec Obj Sample cls fit argsort HA default _ _ _ h1 h1 _ _ H ND LT (fun _ _ => eq_refl)) as F.
    assert (UO : forall v, In v (map fst rvs) -> forall r, In r (match nf with FList l => l | FDict t => dict_get t v | _ => [] end) -> (r < next h)%nat).
    { intros v Iv r Ir. apply SL. unfold users_objects. apply in_flat_map. eauto. }
    clear -F D C UO. revert new F. induction D as [|[v n] [v' d] xs ys [-> [c (Ic & Nc & Lc & Dc)]] _ IH]; intros new F.
    + inversion F; subst. constructor.
    + inversion F as [|? [v1 c1] ? new' X Y]; subst. destruct X as [-> [r [s (-> & P & Bf)]]]. constructor.
      * split; [reflexivity|]. exists c, r, s. repeat split; auto. rewrite Dc in Bf.
        replace (offered Obj cls default h nf v (default c)) with (offered Obj cls default h1 nf v (default c)); [exact Bf|].
        unfold offered. f_equal. assert (Q := UO v (or_introl eq_refl)).
        destruct nf; try reflexivity; apply map_ext_in; intros q Hq; apply C; apply Q; exact Hq.
      * apply IH; auto. intros v0 I0. apply UO. now right.
  - intros q Hq NI. rewrite <- C by exact Hq. eapply back_fitting_frame; [exact H|exact LT|lia|].
    intro I. apply model_refs_in in I. rewrite FST in I. destruct I as [I|I]; [apply B in I; lia|contradiction].
Qed.

(** A list of alternatives is shared by all variables. Whenever two variables end with the same alternative, they end with
    the same prior, that of the variable processed last: the fit of the first variable is lost. *)
Theorem C57_shared_alternative_refuted : exists (h h' : heap (string * Z)) new,
  let fit := fun (o : string * Z) (s : Z) => Ok ((fst o, s), if String.eqb (fst o) "LogNormal" then Fin 0 else Fin 1) in
  let posterior := fun v => Ok (if String.eqb v "a" then 10 else 20)%Z in
  let argsort := fun l => match l with [Fin _; Fin _] => [1; 0]%nat | l => seq 0 (List.length l) end in
  is_argsort [Fin 1; Fin 0] (argsort [Fin 1; Fin 0]) /\
  cell h 0 = ("LogNormal"%string, 0%Z) /\ next h = 1%nat /\
  posterior_fits (string * Z) Z fst (fun n => (n, 0%Z)) fit argsort (fun n => n) ["Normal"]%string
    [("a", "Normal"); ("b", "Normal")]%string posterior (FList [0%nat]) h = (h', Ok new) /\
  new = [("a", Inst 0); ("b", Inst 0)]%string /\
  cell h' 0 = ("LogNormal"%string, 20%Z) /\                      (* reported for "a", whose sample is 10 *)
  ~ best_fit (string * Z) Z fit [("Normal", 0%Z); ("LogNormal", 0%Z)]%string 10%Z (cell h' 0).
Proof.
  exists (mkHeap (fun _ => ("LogNormal"%string, 0%Z)) 1).
  eexists. exists [("a", Inst 0); ("b", Inst 0)]%string. cbv zeta.
  split. { split; [apply perm_swap|]. apply SSorted_cons; [apply SSorted_cons; [apply SSorted_nil|apply Forall_nil]|].
    apply Forall_cons; [|apply Forall_nil]. right. apply xleb_fin. lra. }
  split; [reflexivity|]. split; [reflexivity|]. split; [reflexivity|]. split; [reflexivity|]. split; [reflexivity|].
  intros [c [l [_ [E _]]]]. cbn in E. injection E as _ E _. discriminate.
Qed.

(** The hypotheses of C57_posterior_to_prior on a model with two variables of the same family, one alternative for one of
    them, and a run that returns. *)
Example C57_applies : exists h' new,
  let h := mkHeap (fun _ : nat => ("LogNormal"%string, 0%Z)) 1 in
  let fit := fun (o : string * Z) (s : Z) => Ok ((fst o, s), if String.eqb (fst o) "LogNormal" then Fin 0 else Fin 1) in
  let posterior := fun v => Ok (if String.eqb v "a" then 10 else 20)%Z in
  let argsort := fun l => match l with [Fin _; Fin _] => [1; 0]%nat | l => seq 0 (List.length l) end in
  separate (string * Z) h (FDict [("b"%string, [0%nat])]) ["a"; "b"]%string /\
  posterior_fits (string * Z) Z fst (fun n => (n, 0%Z)) fit argsort (fun n => n) ["Normal"]%string
    [("a", "Normal"); ("b", "Normal")]%string posterior (FDict [("b"%string, [0%nat])]) h = (h', Ok new) /\
  new = [("a", Inst 2); ("b", Inst 0)]%string /\ cell h' 2 = ("Normal"%string, 10%Z) /\ cell h' 0 = ("LogNormal"%string, 20%Z).
Proof.
  eexists. exists [("a", Inst 2); ("b", Inst 0)]%string. cbv zeta. split.
  { split; cbn; [repeat constructor; auto|]. intros r [<-|[]]. lia. }
  repeat split; reflexivity.
Qed.

(* ------------------------------------------------------------ ppe *)
Section Pymc.
Variables (Obj Sample Param : Type).
Variable cls : Obj -> string.
Variable fit : Obj -> Sample -> res (Obj * xr).
Variable argsort : list xr -> list nat.
Variable params : Obj -> list Param.
Variable install : Obj -> list (list Param) -> res Obj.
Variable fit_mle : Obj -> Sample -> res Obj.

Lemma zip2_spec : forall n xs rows, List.length xs = n -> List.length rows = n ->
  List.length (zip2 Param xs rows) = n /\
  forall k, (k < n)%nat -> exists x r, nth_error xs k = Some x /\ nth_error rows k = Some r /\ nth_error (zip2 Param xs rows) k = Some (x :: r).
Proof using.
  induction n; intros [|x xs] [|r rows] A B; try discriminate.
  - split; [reflexivity|]. intros; lia.
  - cbn in A, B. injection A as A. injection B as B. destruct (IHn xs rows A B) as [L H]. split; [cbn; now rewrite L|].
    intros [|k] Hk; cbn; [eauto|]. apply H. lia.
Qed.

(** zip( *rows ) is the transposition of rows of equal length. *)
Lemma zip_star_spec : forall rows n, rows <> [] -> (forall r, In r rows -> List.length r = n) ->
  List.length (zip_star Param rows) = n /\
  forall k, (k < n)%nat -> exists a, nth_error (zip_star Param rows) k = Some a /\ List.length a = List.length rows /\
    forall i r, nth_error rows i = Some r -> nth_error a i = nth_error r k.
Proof using.
  induction rows as [|r rows IH]; intros n NE L; [congruence|]. destruct rows as [|r2 rows].
  - cbn. rewrite map_length. assert (List.length r = n) by (apply L; now left). split; [assumption|].
    intros k Hk. rewrite nth_error_map. destruct (nth_error r k) as [x|] eqn:E.
    + exists [x]. repeat split. intros [|i] q Hq; cbn in *; [injection Hq as <-; now rewrite E|destruct i; discriminate].
    + apply nth_error_None in E. lia.
  - assert (A : List.length r = n) by (apply L; now left).
    destruct (IH n) as [B C]; [discriminate|intros; apply L; now right|].
    change (zip_star Param (r :: r2 :: rows)) with (zip2 Param r (zip_star Param (r2 :: rows))).
    destruct (zip2_spec n r _ A B) as [D E]. split; [exact D|]. intros k Hk.
    destruct (E k Hk) as (x & q & X1 & X2 & X3). exists (x :: q). split; [exact X3|].
    destruct (C k Hk) as (a & Y1 & Y2 & Y3). rewrite X2 in Y1. injection Y1 as <-. split; [cbn in *; now rewrite Y2|].
    intros [|i] w Hw; cbn in *; [injection Hw as <-; now rewrite X1|]. now apply Y3.
Qed.

Lemma fit_columns_spec : forall col is_ h d h' rows,
  fit_columns Obj Sample Param params fit_mle h d col is_ = (h', Ok rows) ->
  next h' = next h /\ (forall q, q <> d -> cell h' q = cell h q) /\
  exists fits, List.length fits = List.length is_ /\ rows = map params fits /\ cell h' d = last fits (cell h d) /\
    forall k i, nth_error is_ k = Some i -> exists s, col i = Ok s /\
      fit_mle (nth k (cell h d :: fits) (cell h d)) s = Ok (nth k fits (cell h d)).
Proof using cls fit argsort install.
  intros col is_. induction is_ as [|i is_ IH]; intros h d h' rows H; cbn in H.
  - injection H as <- <-. repeat split. exists []. repeat split. intros [|k] i Hk; discriminate.
  - destruct (col i) as [s|e] eqn:C; [|discriminate]. destruct (fit_mle (cell h d) s) as [o|e] eqn:F; [|discriminate].
    destruct (fit_columns _ _ _ _ _ (put h d o) d col is_) as [h1 [l|e]] eqn:E; [|discriminate]. injection H as <- <-.
    destruct (IH _ _ _ _ E) as (N & K & fits & L & R & LA & Q). cbn [next put] in N. split; [exact N|]. split.
    + intros q Hq. rewrite K by exact Hq. now apply cell_put_ne.
    + rewrite cell_put_eq in LA, Q. exists (o :: fits). split; [cbn; now rewrite L|]. split; [cbn; now rewrite R|]. split.
      * rewrite LA. destruct fits as [|f fits]; [reflexivity|]. cbn [last].
        clear. revert f. induction fits as [|g fits IH]; intro f; [reflexivity|]. exact (IH g).
      * intros [|k] j Hk; cbn in Hk.
        -- injection Hk as <-. exists s. split; [exact C|]. cbn. exact F.
        -- destruct (Q k j Hk) as [s' [A B]]. exists s'. split; [exact A|].
           change (nth (S k) (cell h d :: o :: fits) (cell h d)) with (nth k (o :: fits) (cell h d)).
           change (nth (S k) (o :: fits) (cell h d)) with (nth k fits (cell h d)).
           assert (Lk : (k < List.length fits)%nat) by (rewrite L; apply nth_error_Some; congruence).
           rewrite (nth_indep fits (cell h d) o Lk). rewrite (nth_indep (o :: fits) (cell h d) o); [exact B|]. cbn. lia.
Qed.

Lemma back_fit_variable_frame : forall h var d size x nf h' r, (nf <> Auto \/ (1 < size)%nat) ->
  back_fit_variable Obj Sample cls fit argsort Param params install fit_mle h var d size x nf = (h', r) ->
  next h' = next h /\ forall q, ~ In q (own_refs nf var d) -> cell h' q = cell h q.
Proof using.
  intros h var d size x nf h' r NA H. unfold back_fit_variable in H. destruct (Nat.ltb_spec 1 size) as [LT|GE].
  - assert (FC : forall col is_ h h' rr, fit_columns Obj Sample Param params fit_mle h d col is_ = (h', rr) ->
              next h' = next h /\ forall q, q <> d -> cell h' q = cell h q).
    { clear. intros col is_. induction is_ as [|i is_ IH]; intros h h' rr H; cbn in H; [injection H as <- <-; auto|].
      destruct (col i) as [s|e]; [|injection H as <- <-; auto]. destruct (fit_mle (cell h d) s) as [o|e]; [|injection H as <- <-; auto].
      destruct (fit_columns _ _ _ _ _ (put h d o) d col is_) as [h1 [l|e]] eqn:E; injection H as <- <-;
      destruct (IH _ _ _ E) as [N K]; (split; [exact N|]); intros q Hq; rewrite K by exact Hq; now apply cell_put_ne. }
    destruct (fit_columns _ _ _ _ _ h d (p_column x) (seq 0 size)) as [h1 rr] eqn:E. destruct (FC _ _ _ _ _ E) as [N K].
    assert (K' : forall q, ~ In q (own_refs nf var d) -> cell h1 q = cell h q).
    { intros q Hq. apply K. intros ->. apply Hq. now left. }
    destruct rr as [rows|e]; [|injection H as <- <-; auto].
    destruct (install _ _) as [o|e]; injection H as <- <-; [|auto]. split; [exact N|].
    intros q Hq. rewrite cell_put_ne; [auto|]. intros ->. apply Hq. now left.
  - assert (CS : set_families Obj cls h d var nf = map Inst (own_refs nf var d)).
    { destruct nf; try reflexivity. destruct NA as [NA|NA]; [congruence|lia]. }
    rewrite CS in H. destruct (mle _ _ _ _ _ h _ _) as [h1 rr] eqn:M. edestruct mle_frame as [N K]; [exact M|].
    destruct rr as [idx|e]; injection H as <- <-; auto.
Qed.

Definition var_refs (nf : families) (vars : list (string * nat * nat)) : list nat := model_refs nf (map fst vars).

Lemma back_fitting_pymc_frame : forall prior nf vars h h' r, nf <> Auto ->
  back_fitting_pymc Obj Sample cls fit argsort Param params install fit_mle prior nf vars h = (h', r) ->
  forall q, ~ In q (var_refs nf vars) -> cell h' q = cell h q.
Proof using.
  intros prior nf vars. induction vars as [|[[v d] n] vars IH]; intros h h' r NA H q NI; cbn in H.
  - injection H as <- <-. reflexivity.
  - destruct (prior v) as [x|e]; [|injection H as <- <-; reflexivity].
    change (var_refs nf ((v, d, n) :: vars)) with (own_refs nf v d ++ var_refs nf vars)%list in NI. rewrite in_app_iff in NI.
    destruct (back_fit_variable _ _ _ _ _ _ _ _ _ h v d n x nf) as [h1 rr] eqn:E.
    destruct (back_fit_variable_frame _ _ _ _ _ _ _ _ (or_introl NA) E) as [_ K].
    destruct rr as [c|e]; [|injection H as <- <-; apply K; tauto].
    destruct (back_fitting_pymc _ _ _ _ _ _ _ _ _ prior nf vars h1) as [h2 [l|e]] eqn:B; injection H as <- <-;
    rewrite (IH _ _ _ NA B) by tauto; apply K; tauto.
Qed.
End Pymc.

(** back_fitting_pymc, the last step of ppe: a variable with one element gets a best fit to its own projected values, and a
    variable with several elements the fits to its own columns, element by element. The priors come from separate objects
    and the user offers none of them twice. *)
Theorem C57_ppe_priors : forall Obj Sample Param (cls : Obj -> string) fit argsort params install fit_mle
    (prior : string -> res (projected Sample)) nf (vars : list (string * nat * nat)) h h' new (default : string -> Obj),
  (forall l, is_argsort l (argsort l)) -> nf <> Auto ->
  separate Obj h nf (map (fun v => fst (fst v)) vars) ->
  NoDup (map (fun v => snd (fst v)) vars) ->
  (forall v, In v vars -> ~ In (snd (fst v)) (users_objects nf (map (fun v => fst (fst v)) vars))) ->
  back_fitting_pymc Obj Sample cls fit argsort Param params install fit_mle prior nf vars h = (h', Ok new) ->
  Forall2 (fun '(v, d, size) '(v', c) => v' = v /\ exists x r, prior v = Ok x /\ c = Inst r /\
      if Nat.leb size 1 then best_fit Obj Sample fit (offered Obj cls default h nf v (cell h d)) (p_all x) (cell h' r)
      else elementwise Obj Sample params install fit_mle (cell h d) (p_column x) size (cell h' r)) vars new /\
  (forall q, ~ In q (map (fun v => snd (fst v)) vars) -> ~ In q (users_objects nf (map (fun v => fst (fst v)) vars)) ->
     cell h' q = cell h q).
Proof.
  intros Obj Sample Param cls fit argsort params install fit_mle prior nf vars h0 h' new default HA NA [SN SL] ND DJ H.
  assert (FS : map fst (map fst vars) = map (fun v => fst (fst v)) vars) by apply map_map.
  assert (SD : map snd (map fst vars) = map (fun v => snd (fst v)) vars) by apply map_map.
  assert (NDR : NoDup (var_refs nf vars)).
  { apply model_refs_nodup; rewrite ?FS, ?SD; auto. intros d Hd. apply in_map_iff in Hd. destruct Hd as [v [<- Hv]]. now apply DJ. }
  split.
  2:{ intros q A B. eapply back_fitting_pymc_frame; [exact NA|exact H|]. intro I. apply model_refs_in in I.
      rewrite FS, SD in I. tauto. }
  assert (EQ : forall r, In r (var_refs nf vars) -> cell h0 r = cell h0 r) by reflexivity.
  clear SN SL ND DJ FS SD. remember h0 as h eqn:Eh in H. assert (EQ' : forall r, In r (var_refs nf vars) -> cell h r = cell h0 r) by (intros; now rewrite Eh).
  clear Eh EQ. revert h h' new H NDR EQ'.
  induction vars as [|[[v d] n] vars IH]; intros h h' new H NDR EQ; cbn in H.
  - injection H as <- <-. constructor.
  - destruct (prior v) as [x|e] eqn:P; [|discriminate].
    change (var_refs nf ((v, d, n) :: vars)) with (own_refs nf v d ++ var_refs nf vars)%list in NDR, EQ.
    destruct (back_fit_variable _ _ _ _ _ _ _ _ _ h v d n x nf) as [h1 [c|e]] eqn:E; [|discriminate].
    destruct (back_fitting_pymc _ _ _ _ _ _ _ _ _ prior nf vars h1) as [h2 [l|e]] eqn:B; [|discriminate]. injection H as <- <-.
    edestruct back_fit_variable_frame as [_ K]; [exact (or_introl NA)|exact E|].
    assert (K2 : forall q, ~ In q (var_refs nf vars) -> cell h2 q = cell h1 q) by (eapply back_fitting_pymc_frame; [exact NA|exact B]).
    constructor.
    + split; [reflexivity|].
      assert (ED : cell h d = cell h0 d) by (apply EQ, in_or_app; left; now left).
      assert (OF : map (cell h) (own_refs nf v d) = offered Obj cls default h0 nf v (cell h0 d)).
      { unfold offered, own_refs. cbn [map]. rewrite ED. f_equal. destruct nf; try reflexivity; [congruence| |];
        apply map_ext_in; intros q Hq; apply EQ, in_or_app; left; now right. }
      unfold back_fit_variable in E. destruct (Nat.ltb_spec 1 n) as [LT|GE].
      * destruct (fit_columns _ _ _ _ _ h d (p_column x) (seq 0 n)) as [h3 [rows|e]] eqn:F; [|discriminate].
        destruct (install (cell h3 d) (zip_star Param rows)) as [o|e] eqn:I; [|discriminate]. injection E as <- <-.
        destruct (fit_columns_spec Obj Sample Param cls fit argsort params install fit_mle _ _ _ _ _ _ F) as (_ & _ & fits & L & R & LA & Q).
        rewrite seq_length in L.
        exists x, d. split; [exact P|]. split; [reflexivity|]. destruct (Nat.leb_spec n 1); [lia|].
        rewrite K2, cell_put_eq.
        2:{ intro J. exact (nodup_app_disj _ _ _ d NDR (or_introl eq_refl) J). }
        exists fits, (zip_star Param rows). split; [exact L|]. rewrite <- ED. split; [|split].
        -- intros i Hi. apply Q. rewrite (nth_error_nth' _ 0%nat) by (rewrite seq_length; lia). rewrite seq_nth by lia. reflexivity.
        -- now rewrite <- LA.
        -- intros m Hm. assert (NE : rows <> []). { rewrite R. destruct fits; [cbn in L; lia|discriminate]. }
           assert (RL : forall r, In r rows -> List.length r = m). { intros r Hr. rewrite R in Hr. apply in_map_iff in Hr. destruct Hr as [f [<- Hf]]. auto. }
           destruct (zip_star_spec Param rows m NE RL) as [A1 A2]. split; [exact A1|]. intros k Hk.
           destruct (A2 k Hk) as (a & B1 & B2 & B3). exists a. split; [exact B1|]. split; [rewrite B2, R, map_length; exact L|].
           intros i Hi. apply B3. rewrite R, nth_error_map. rewrite (nth_error_nth' fits (cell h d)) by lia. reflexivity.
      * assert (CS : set_families Obj cls h d v nf = map Inst (own_refs nf v d)) by (destruct nf; try reflexivity; congruence).
        rewrite CS in E. destruct (mle _ _ _ _ _ h _ _) as [h3 [idx|e]] eqn:M; [|discriminate]. injection E as <- E.
        destruct (mle_pick Obj Sample cls fit argsort HA _ _ _ _ _ _ (nodup_app_l _ _ _ NDR) M E) as [r [-> [Ir BF]]].
        exists x, r. split; [exact P|]. split; [reflexivity|]. destruct (Nat.leb_spec n 1); [|lia].
        rewrite <- OF. rewrite K2; [exact BF|]. intro J. exact (nodup_app_disj _ _ _ r NDR Ir J).
    + apply IH with (h := h1); auto.
      * exact (nodup_app_r _ _ _ NDR).
      * intros q Hq. rewrite <- EQ by (apply in_or_app; now right). apply K. intro J. exact (nodup_app_disj _ _ _ q NDR J Hq).
Qed.

Example C57_ppe_applies : exists h' new,
  let h := mkHeap (fun r : nat => ("Normal"%string, [Z.of_nat r])) 2 in
  let fit := fun (o : string * list Z) (s : Z) => Ok ((fst o, [s]), Fin 1) in
  let fit_mle := fun (o : string * list Z) (s : Z) => Ok (fst o, [s; (s + 1)%Z]) in
  let install := fun (o : string * list Z) (a : list (list Z)) => Ok (fst o, List.concat a) in
  let prior := fun v => Ok (mkProj 7%Z (fun i => Ok (Z.of_nat (10 * i)))) in
  back_fitting_pymc (string * list Z) Z fst fit (fun l => seq 0 (List.length l)) Z snd install fit_mle prior NoFamilies
    [("a", 0, 1); ("b", 1, 3)]%string%nat h = (h', Ok new) /\
  separate (string * list Z) h NoFamilies ["a"; "b"]%string /\
  new = [("a", Inst 0); ("b", Inst 1)]%string /\ snd (cell h' 0) = [7%Z] /\ snd (cell h' 1) = [0; 10; 20; 1; 11; 21]%Z.
Proof.
  eexists. exists [("a", Inst 0); ("b", Inst 1)]%string. cbv zeta. split; [reflexivity|].
  split; [split; cbn; [constructor|intros r []]|]. repeat split; reflexivity.
Qed.

(** ppe with new_families="auto" never returns as soon as the model has a variable with one element: the classes Normal,
    HalfNormal and Gamma are offered in the place of instances. *)
Theorem C57_ppe_auto_refuted : forall Obj Sample Param (cls : Obj -> string) fit argsort params install fit_mle
    (prior : string -> res (projected Sample)) vars h,
  (exists v d n, In (v, d, n) vars /\ (n <= 1)%nat) -> (forall r, cls r <> "type"%string) ->
  forall new, snd (back_fitting_pymc Obj Sample cls fit argsort Param params install fit_mle prior Auto vars h) <> Ok new.
Proof.
  intros Obj Sample Param cls fit argsort params install fit_mle prior vars. induction vars as [|[[v d] n] vars IH]; intros h HV HC new H.
  - destruct HV as (v & d & n & [] & _).
  - cbn in H. destruct (prior v) as [x|e]; [|discriminate].
    destruct (back_fit_variable _ _ _ _ _ _ _ _ _ h v d n x Auto) as [h1 [c|e]] eqn:E; [|discriminate].
    destruct HV as (v' & d' & n' & I & Hn). destruct I as [I|I].
    + injection I as -> -> ->. unfold back_fit_variable in E. destruct (Nat.ltb_spec 1 n'); [lia|].
      cbn [set_families] in E. destruct (String.eqb_spec (cls (cell h d')) "type") as [T|T]; [exact (HC _ T)|].
      cbn [negb filter map auto_names] in E. unfold mle in E. destruct (all_valid _ _ _ _); [|discriminate].
      cbn [fit_loop] in E. destruct (fit (cell h d') (p_all x)) as [[o l]|e]; discriminate.
    + destruct (back_fitting_pymc _ _ _ _ _ _ _ _ _ prior Auto vars h1) as [h2 [l|e]] eqn:B; [|discriminate].
      apply (IH h1 (ex_intro _ v' (ex_intro _ d' (ex_intro _ n' (conj I Hn)))) HC l). now rewrite B.
Qed.

(** A variable whose values form a vector has all its columns; one whose values form a matrix does not, and ppe raises. *)
Theorem C57_columns : forall shape i, (i < fold_right Nat.mul 1 shape)%nat ->
  List.length (filter (fun n => negb (Nat.eqb n 1)) shape) = 1%nat -> column_status shape i = Ok tt.
Proof.
  intros shape i Hi L. unfold column_status.
  assert (E : fold_right Nat.mul 1%nat shape = fold_right Nat.mul 1%nat (filter (fun n => negb (Nat.eqb n 1)) shape)).
  { clear. induction shape as [|a l IH]; [reflexivity|]. cbn. destruct (Nat.eqb_spec a 1) as [->|]; cbn; [|congruence]. lia. }
  rewrite E in Hi. destruct (filter _ shape) as [|a [|b l]]; try discriminate. cbn in Hi. rewrite Nat.mul_1_r in Hi.
  destruct (Nat.ltb_spec i a); [reflexivity|lia].
Qed.

(** A variable with two or more dimensions cannot be back fitted: ppe never gets a prior for it. *)
Theorem C57_matrix_refuted : forall Obj Sample Param (cls : Obj -> string) fit argsort params install fit_mle nf h v d
    (x : projected Sample) shape,
  (forall i, p_column x i = match column_status shape i with Ok _ => Ok (p_all x) | Err e => Err e end) ->
  (2 <= List.length (filter (fun n => negb (Nat.eqb n 1)) shape))%nat -> (forall n, In n shape -> (0 < n)%nat) ->
  forall c, snd (back_fit_variable Obj Sample cls fit argsort Param params install fit_mle h v d
                   (fold_right Nat.mul 1%nat shape) x nf) <> Ok c.
Proof.
  intros Obj Sample Param cls fit argsort params install fit_mle nf h v d x shape HX HL HP c H.
  assert (E : fold_right Nat.mul 1%nat shape = fold_right Nat.mul 1%nat (filter (fun n => negb (Nat.eqb n 1)) shape)).
  { clear. induction shape as [|a l IH]; [reflexivity|]. cbn. destruct (Nat.eqb_spec a 1) as [->|]; cbn; [|congruence]. lia. }
  assert (P : forall n, In n (filter (fun n => negb (Nat.eqb n 1)) shape) -> (2 <= n)%nat).
  { intros n I. apply filter_In in I. destruct I as [I J]. apply HP in I. destruct (Nat.eqb_spec n 1); [discriminate|lia]. }
  assert (CS : forall i, column_status shape i = match filter (fun n => negb (Nat.eqb n 1)) shape with a :: _ => if Nat.ltb i a then Ok tt else Err IndexError | [] => Err IndexError end) by reflexivity.
  rewrite E in H. destruct (filter _ shape) as [|a [|b l]]; cbn in HL; try lia.
  assert (Pa : (2 <= a)%nat) by (apply P; now left). assert (Pb : (2 <= b)%nat) by (apply P; right; now left).
  assert (Pl : (1 <= fold_right Nat.mul 1 l)%nat).
  { assert (Q : forall n, In n l -> (2 <= n)%nat) by (intros n I; apply P; right; now right). clear -Q.
    induction l as [|n l IH]; cbn; [lia|]. assert (2 <= n)%nat by (apply Q; now left).
    assert (1 <= fold_right Nat.mul 1 l)%nat by (apply IH; intros; apply Q; now right). nia. }
  set (size := fold_right Nat.mul 1%nat (a :: b :: l)) in *.
  assert (SZ : (a < size)%nat).
  { unfold size. change (fold_right Nat.mul 1%nat (a :: b :: l)) with (a * (b * fold_right Nat.mul 1 l))%nat.
    generalize dependent (fold_right Nat.mul 1%nat l). intros F Pl. clear -Pa Pb Pl. assert (2 <= b * F)%nat by nia. nia. }
  unfold back_fit_variable in H. destruct (Nat.ltb_spec 1 size); [|lia].
  destruct (fit_columns _ _ _ _ _ h d (p_column x) (seq 0 size)) as [h1 [rows|e]] eqn:F; [|discriminate].
  destruct (fit_columns_spec Obj Sample Param cls fit argsort params install fit_mle _ _ _ _ _ _ F) as (_ & _ & fits & _ & _ & _ & Q).
  destruct (Q a a) as [s [S _]].
  { rewrite (nth_error_nth' _ 0%nat) by (rewrite seq_length; lia). now rewrite seq_nth by lia. }
  rewrite HX, CS in S. destruct (Nat.ltb_spec a a); [lia|discriminate].
Qed.
Example C57_matrix_applies : column_status [2; 3]%nat 1 = Ok tt /\ column_status [2; 3]%nat 2 = Err IndexError.
Proof. split; reflexivity. Qed.

(* ------------------------------------------------------------ C58 *)
(** The i-th data set drawn from the target, when the generator is in state [g]: with a single distribution it is drawn with
    seed i, with a weighted list from the generator, which moves to the state [g']. *)
Definition drawn {Sample Rng Dist} (rvs_seed : Dist -> nat -> nat -> Sample)
    (rvs_weighted : list (Dist * xr) -> nat -> Rng -> res (Sample * Rng)) (t : target Dist) (num_draws i : nat)
    (g : Rng) (s : Sample) (g' : Rng) : Prop :=
  match t with
  | One d => s = rvs_seed d num_draws i /\ g' = g
  | Many l => rvs_weighted l num_draws g = Ok (s, g')
  end.

Lemma project_loop_spec : forall Vec Sample Rng Dist rvs_seed rvs_weighted (minimise : Vec -> Sample -> res Vec) (t : target Dist)
    num_draws m k guess (g : Rng) rows, (1 <= k)%nat ->
  project_loop Vec Sample Rng Dist rvs_seed rvs_weighted minimise t num_draws (seq k m) guess g = Ok rows ->
  List.length rows = m /\ exists (gens : list Rng), nth_error gens 0 = Some g /\
    forall i, (i < m)%nat -> exists s gi gj,
      nth_error gens i = Some gi /\ nth_error gens (S i) = Some gj /\
      drawn rvs_seed rvs_weighted t num_draws (k + i) gi s gj /\
      minimise (nth i (guess :: rows) guess) s = Ok (nth i rows guess).
Proof.
  intros Vec Sample Rng Dist rvs_seed rvs_weighted minimise t num_draws. induction m as [|m IH]; intros k guess g rows Hk H.
  - cbn in H. injection H as <-. split; [reflexivity|]. exists [g]. split; [reflexivity|]. intros; lia.
  - cbn [seq project_loop] in H.
    destruct (match t with One d => _ | Many l => _ end) as [[s g1]|e] eqn:D; [|discriminate]. cbn [bind] in H.
    destruct (minimise guess s) as [x|e] eqn:M; [|discriminate]. cbn [bind] in H.
    destruct (project_loop _ _ _ _ _ _ _ _ _ (seq (S k) m) x g1) as [tl|e] eqn:P; [|discriminate]. cbn [bind] in H.
    destruct (Nat.eqb_spec k 0); [lia|]. injection H as <-.
    destruct (IH (S k) x g1 tl) as [L [gens [G0 G]]]; [lia|exact P|].
    split; [cbn; now rewrite L|]. exists (g :: gens). split; [reflexivity|].
    intros [|i] Hi.
    + exists s, g, g1. split; [reflexivity|]. split; [exact G0|]. split; [|exact M].
      rewrite Nat.add_0_r. destruct t as [d|l]; cbn; [injection D as <- <-; auto|exact D].
    + destruct (G i) as (si & gi & gj & A & B & C & E); [lia|]. exists si, gi, gj. split; [exact A|]. split; [exact B|].
      split; [now replace (k + S i)%nat with (S k + i)%nat by lia|].
      change (nth (S i) (guess :: x :: tl) guess) with (nth i (x :: tl) guess).
      change (nth (S i) (x :: tl) guess) with (nth i tl guess).
      rewrite (nth_indep (x :: tl) guess x) by (cbn; lia). rewrite (nth_indep tl guess x) by lia. exact E.
Qed.

(** The projection has as many rows as iterations. Each row comes from minimising, for one data set drawn from the target,
    starting at the previous result; the first result of all only serves as a start. *)
Theorem C58_projection : forall Vec Sample Rng Dist rvs_seed rvs_weighted (minimise : Vec -> Sample -> res Vec) (t : target Dist)
    num_draws n guess (g : Rng) rows,
  optimize_pymc_model Vec Sample Rng Dist rvs_seed rvs_weighted minimise t num_draws n guess g = Ok rows ->
  List.length rows = n /\
  exists (first : Vec) (gens : list Rng), nth_error gens 0 = Some g /\
    forall i, (i <= n)%nat -> exists s gi gj,
      nth_error gens i = Some gi /\ nth_error gens (S i) = Some gj /\
      drawn rvs_seed rvs_weighted t num_draws i gi s gj /\
      minimise (nth i (guess :: first :: rows) guess) s = Ok (nth i (first :: rows) guess).
Proof.
  intros Vec Sample Rng Dist rvs_seed rvs_weighted minimise t num_draws n guess g rows H.
  unfold optimize_pymc_model in H. rewrite Nat.add_comm in H. cbn [Nat.add seq project_loop] in H.
  destruct (match t with One d => _ | Many l => _ end) as [[s g1]|e] eqn:D; [|discriminate]. cbn [bind] in H.
  destruct (minimise guess s) as [x|e] eqn:M; [|discriminate]. cbn [bind] in H.
  destruct (project_loop _ _ _ _ _ _ _ _ _ (seq 1 n) x g1) as [tl|e] eqn:P; [|discriminate]. cbn in H. injection H as <-.
  destruct (project_loop_spec _ _ _ _ _ _ _ _ _ _ 1 x g1 tl (le_n 1) P) as [L [gens [G0 G]]].
  split; [exact L|]. exists x, (g :: gens). split; [reflexivity|]. intros [|i] Hi.
  - exists s, g, g1. split; [reflexivity|]. split; [exact G0|]. split; [|exact M].
    destruct t as [d|l]; cbn; [injection D as <- <-; auto|exact D].
  - destruct (G i) as (si & gi & gj & A & B & C & E); [lia|]. exists si, gi, gj. split; [exact A|]. split; [exact B|].
    split; [exact C|].
    change (nth (S i) (guess :: x :: tl) guess) with (nth i (x :: tl) guess).
    change (nth (S i) (x :: tl) guess) with (nth i tl guess).
    rewrite (nth_indep (x :: tl) guess x) by (cbn; lia). rewrite (nth_indep tl guess x) by lia. exact E.
Qed.
Example C58_projection_applies :
  optimize_pymc_model nat nat unit unit (fun _ n seed => (100 * n + seed)%nat) (fun _ _ g => Ok (0%nat, g))
    (fun guess s => Ok (guess + s)%nat) (One tt) 1 3 0%nat tt = Ok [201; 303; 406]%nat.
Proof. reflexivity. Qed.

(** The argument random_state does not reach the draws from a single target: the projection is the same for every generator. *)
Theorem C58_random_state_refuted : forall Vec Sample Rng Dist rvs_seed rvs_weighted (minimise : Vec -> Sample -> res Vec) d
    num_draws n guess (g g' : Rng),
  optimize_pymc_model Vec Sample Rng Dist rvs_seed rvs_weighted minimise (One d) num_draws n guess g =
  optimize_pymc_model Vec Sample Rng Dist rvs_seed rvs_weighted minimise (One d) num_draws n guess g'.
Proof.
  intros Vec Sample Rng Dist rvs_seed rvs_weighted minimise d num_draws n guess g g'. unfold optimize_pymc_model.
  generalize (seq 0 (n + 1)). intro l. revert guess. induction l as [|i l IH]; intro guess; [reflexivity|]. cbn.
  destruct (minimise guess _) as [x|e]; [|reflexivity]. cbn. now rewrite IH.
Qed.

(** A weighted draw has the requested size and takes, at each position, the value that the chosen target drew for that
    position. *)
Theorem C58_weighted : forall Dist A Rng maxargs choice (draw : Dist -> nat -> Rng -> list A * Rng) target size g l g',
  get_weighted_rvs Dist A Rng maxargs choice draw target size g = Ok (l, g') ->
  exists choices g1, choice (List.length target) size (map snd target) g = Ok (choices, g1) /\
    List.length l = List.length choices /\
    forall j k, nth_error choices j = Some k -> exists d gk sample gk', 
      nth_error (map fst target) k = Some d /\ draw d size gk = (sample, gk') /\ nth_error l j = nth_error sample j /\
      nth_error l j <> None.
Proof.
  intros Dist A Rng maxargs choice draw target size g l g' H. unfold get_weighted_rvs in H. rewrite map_length in H.
  destruct (choice _ _ _ g) as [[choices g1]|e]; [|discriminate]. cbn [bind] in H.
  destruct (draw_all _ _ _ _ _ _ g1) as [samples g2] eqn:D. destruct (Nat.leb _ _); [discriminate|].
  destruct (choose_loop _ choices samples 0) as [l'|e] eqn:C; [|discriminate]. cbn in H. injection H as <- <-.
  exists choices, g1. split; [reflexivity|].
  assert (DA : forall ts gg ss g3, draw_all Dist A Rng draw ts size gg = (ss, g3) ->
     forall k s, nth_error ss k = Some s -> exists d gk gk', nth_error ts k = Some d /\ draw d size gk = (s, gk')).
  { clear. induction ts as [|t ts IH]; intros gg ss g3 H k s K; cbn in H.
    - injection H as <- <-. destruct k; discriminate.
    - destruct (draw t size gg) as [s0 g4] eqn:E. destruct (draw_all _ _ _ draw ts size g4) as [ls g5] eqn:F. injection H as <- <-.
      destruct k as [|k]; cbn in K; [injection K as <-; exists t, gg, g4; auto|]. exact (IH _ _ _ F _ _ K). }
  assert (CH : forall cs ll j0, choose_loop A cs samples j0 = Ok ll -> List.length ll = List.length cs /\
     forall j k, nth_error cs j = Some k -> exists s a, nth_error samples k = Some s /\ nth_error s (j0 + j) = Some a /\ nth_error ll j = Some a).
  { clear. induction cs as [|c cs IH]; intros ll j0 H; cbn in H.
    - injection H as <-. split; [reflexivity|]. intros [|j] k K; discriminate.
    - destruct (nth_error samples c) as [s|] eqn:S0; [|discriminate]. destruct (nth_error s j0) as [a|] eqn:E; [|discriminate].
      destruct (choose_loop A cs samples (S j0)) as [tl|e] eqn:T; [|discriminate]. cbn in H. injection H as <-.
      destruct (IH _ _ T) as [L Q]. split; [cbn; now rewrite L|]. intros [|j] k K; cbn in K.
      + injection K as <-. exists s, a. rewrite Nat.add_0_r. auto.
      + destruct (Q _ _ K) as (s' & a' & X & Y & Z). exists s', a'. split; [exact X|]. split; [|exact Z].
        now replace (j0 + S j)%nat with (S j0 + j)%nat by lia. }
  destruct (CH _ _ _ C) as [L Q]. split; [exact L|]. intros j k K. destruct (Q _ _ K) as (s & a & X & Y & Z).
  destruct (DA _ _ _ _ D _ _ X) as (d & gk & gk' & U & V). exists d, gk, s, gk'. split; [exact U|]. split; [exact V|].
  cbn in Y. split; congruence.
Qed.
Example C58_weighted_applies :
  get_weighted_rvs nat nat nat 32 (fun k n w g => Ok ([0; 1; 1]%nat, S g)) (fun d n g => (map (fun j => (10 * d + j)%nat) (seq 0 n), S g))
    [(1%nat, Fin (1/2)); (2%nat, Fin (1/2))] 3 0%nat = Ok ([10; 21; 22]%nat, 3%nat).
Proof. reflexivity. Qed.

(** When ppe returns, the user's model is as it was, for every variable; also when it raises before the observed variable
    is replaced, or after the projection. *)
Theorem C58_model_restored : forall Value Vec Prior Text observed fresh extract info guess compile project unravel backfit write
    engine_ok (m : rvs_to_values Value),
  let run := ppe Value Vec Prior Text observed fresh extract info guess compile project unravel backfit write engine_ok m in
  ((exists t, snd run = Ok t) \/ (exists e, (do _ <- extract m; do _ <- info m; guess m) = Err e) \/
   (forall o, In o observed -> is_ok (compile (assign m o (fresh o))) = true /\ is_ok (project (assign m o (fresh o))) = true)) ->
  forall v, fst run v = m v.
Proof.
  intros Value Vec Prior Text observed fresh extract info guess compile project unravel backfit write engine_ok m run H v.
  unfold run, ppe in *. destruct (do _ <- extract m; do _ <- info m; guess m) as [u|e]; [|reflexivity].
  destruct observed as [|o obs]; [reflexivity|].
  destruct (compile (assign m o (fresh o))) as [c|e] eqn:C.
  2:{ exfalso. destruct H as [[t H]|[[e' H]|H]]; [discriminate|discriminate|].
      destruct (H o (or_introl eq_refl)) as [A _]. rewrite C in A. discriminate. }
  destruct (project (assign m o (fresh o))) as [p|e] eqn:P.
  2:{ exfalso. destruct H as [[t H]|[[e' H]|H]]; [discriminate|discriminate|].
      destruct (H o (or_introl eq_refl)) as [_ A]. rewrite P in A. discriminate. }
  cbn. unfold assign. destruct (String.eqb_spec v o) as [->|]; reflexivity.
Qed.

(** If compiling or minimising raises, and this includes an interruption by the user, the observed variable keeps the
    placeholder: the model no longer holds the data. *)
Theorem C58_model_restored_refuted : forall Value Vec Prior Text o obs fresh extract info guess compile
    (project : rvs_to_values Value -> res Vec) unravel backfit write engine_ok (m : rvs_to_values Value) e,
  (do _ <- extract m; do _ <- info m; guess m) = Ok tt -> fresh o <> m o ->
  (compile (assign m o (fresh o)) = Err e \/ compile (assign m o (fresh o)) = Ok tt /\ project (assign m o (fresh o)) = Err e) ->
  let run := ppe Value Vec Prior Text (o :: obs) fresh extract info guess compile project unravel backfit write engine_ok m in
  snd run = Err e /\ fst run o = fresh o /\ fst run o <> m o.
Proof.
  intros Value Vec Prior Text o obs fresh extract info guess compile project unravel backfit write engine_ok m e A B C run.
  unfold run, ppe. rewrite A. destruct C as [C|[C P]]; rewrite C; [|rewrite P]; cbn; unfold assign; rewrite String.eqb_refl; auto.
Qed.
Example C58_model_applies : exists m : rvs_to_values nat,
  ppe nat nat nat nat ["y"]%string (fun _ => 7%nat) (fun _ => Ok tt) (fun _ => Ok tt) (fun _ => Ok tt) (fun _ => Ok tt)
    (fun m => if Nat.eqb (m "y"%string) 7 then Ok 1%nat else Err ValueError) Ok Ok Ok true (fun _ => 0%nat) = (m, Ok 1%nat) /\ m "y"%string = 0%nat.
Proof. eexists. split; reflexivity. Qed.

(** An engine that is neither "pymc" nor "bambi" is not reported: everything is computed and then the name of the result is
    missing. The automatic choice gives such an engine for every other object. *)
Theorem C58_engine_refuted : forall Value Vec Prior Text observed fresh extract info guess compile project unravel backfit write
    (m : rvs_to_values Value),
  let run := ppe Value Vec Prior Text observed fresh extract info guess compile project unravel backfit write false m in
  (forall t, snd run <> Ok t) /\
  (forall o obs v u b, (do _ <- extract m; do _ <- info m; guess m) = Ok tt -> observed = o :: obs -> compile (assign m o (fresh o)) = Ok tt ->
   project (assign m o (fresh o)) = Ok v -> unravel v = Ok u -> backfit u = Ok b -> snd run = Err RuntimeError).
Proof.
  intros Value Vec Prior Text observed fresh extract info guess compile project unravel backfit write m run. unfold run, ppe. split.
  - intros t. destruct (do _ <- extract m; do _ <- info m; guess m); [|discriminate].
    destruct observed; [discriminate|]. destruct (compile _); [|discriminate]. destruct (project _) as [v|]; [|discriminate].
    cbn. destruct (unravel v) as [u|]; [|discriminate]. cbn. destruct (backfit u); discriminate.
  - intros o obs v u b E -> C P U B. rewrite E, C, P. cbn. rewrite U. cbn. rewrite B. reflexivity.
Qed.
(** A model without observed variables is refused with IndexError, and left as it was. *)
Theorem C58_no_observed : forall Value Vec Prior Text fresh extract info guess compile project unravel backfit write engine_ok
    (m : rvs_to_values Value), (do _ <- extract m; do _ <- info m; guess m) = Ok tt ->
  ppe Value Vec Prior Text [] fresh extract info guess compile project unravel backfit write engine_ok m = (m, Err IndexError).
Proof. intros Value Vec Prior Text fresh extract info guess compile project unravel backfit write engine_ok m E. unfold ppe. rewrite E. reflexivity. Qed.
Theorem C58_engine : forall basic_rvs formula,
  (get_engine basic_rvs formula = "pymc"%string <-> basic_rvs = true) /\
  (get_engine basic_rvs formula = "bambi"%string <-> basic_rvs = false /\ formula = true) /\
  (get_engine basic_rvs formula = "preliz"%string <-> basic_rvs = false /\ formula = false).
Proof. intros [] []; repeat split; intros; repeat match goal with H : _ /\ _ |- _ => destruct H end; try reflexivity; discriminate. Qed.
(** mle refuses a Categorical before anything is changed, and a class that was not called. *)
Theorem C57_unusable_candidates : forall Obj Sample (cls : Obj -> string) fit argsort h cs (s : Sample),
  ((exists r, In (Inst r) cs /\ cls (cell h r) = "Categorical"%string) -> mle Obj Sample cls fit argsort h cs s = (h, Err ValueError)) /\
  ((forall r, In (Inst r) cs -> cls (cell h r) <> "Categorical"%string) -> forall n,
   mle Obj Sample cls fit argsort h (Class n :: cs) s = (h, Err TypeError)).
Proof.
  intros Obj Sample cls fit argsort h cs s. split.
  - intros (r & I & C). unfold mle. replace (all_valid Obj cls h cs) with (@Err unit ValueError); [reflexivity|]. symmetry.
    induction cs as [|c cs IH]; [destruct I|]. cbn [all_valid]. destruct (String.eqb _ _) eqn:E; [reflexivity|].
    apply IH. destruct I as [->|I]; [|exact I]. cbn [candidate_class] in E. rewrite C in E. discriminate.
  - intros N n. unfold mle. cbn [all_valid candidate_class String.eqb]. replace (all_valid Obj cls h cs) with (Ok tt); [reflexivity|].
    symmetry. revert N. induction cs as [|c cs IH]; intros N; [reflexivity|]. cbn [all_valid]. replace (String.eqb _ _) with false.
    + apply IH. intros r I. apply N. right. exact I.
    + symmetry. apply String.eqb_neq. destruct c as [r|k]; cbn [candidate_class]; [apply N; left; reflexivity | discriminate].
Qed.
(** posterior_to_prior raises KeyError for a model with a prior whose distribution it does not know. *)
Theorem C57_unknown_prior : forall Obj Sample (cls : Obj -> string) default fit argsort lower all rvs (posterior : string -> res Sample) nf h v n,
  In (v, n) rvs -> (forall c, In c all -> ~ In c ["Truncated"; "Censored"; "Hurdle"; "Mixture"]%string -> lower c <> n) ->
  snd (posterior_fits Obj Sample cls default fit argsort lower all rvs posterior nf h) = Err KeyError.
Proof.
  intros Obj Sample cls default fit argsort lower all rvs posterior nf h v n I N. unfold posterior_fits, extract_preliz_distributions.
  set (names := filter _ all). assert (U : ~ In n (map lower names)).
  { intros J. apply in_map_iff in J. destruct J as (c & <- & J). apply filter_In in J. destruct J as [J1 J2]. apply (N c J1); [|reflexivity].
    intros K. apply negb_true_iff in J2. rewrite (proj2 (existsb_exists _ _)) in J2; [discriminate|]. exists c. split; [exact K | apply String.eqb_refl]. }
  destruct (alloc_all _ _) as [refs h1]. assert (L : lookup_ref (combine (map lower names) refs) n = None).
  { clear - U. revert refs. induction (map lower names) as [|k ks IH]; intros refs; [reflexivity|]. destruct refs as [|r refs]; [reflexivity|]. cbn [combine lookup_ref].
    rewrite IH by (intros J; apply U; right; exact J). replace (String.eqb k n) with false; [reflexivity|]. symmetry. apply String.eqb_neq. intros ->. apply U. left. reflexivity. }
  assert (X : snd (extract_loop Obj (combine (map lower names) refs) rvs h1) = Err KeyError).
  { clear - I L. revert h1. induction rvs as [|[v' n'] rvs IH]; intros h1; [destruct I|]. cbn [extract_loop]. destruct (lookup_ref _ n') as [r|] eqn:E.
    - destruct I as [J|I]; [injection J as -> ->; congruence|]. destruct (alloc h1 (cell h1 r)) as [d h2]. specialize (IH I h2).
      destruct (extract_loop _ _ _ h2) as [h3 [l|e]]; cbn [snd] in *; [discriminate | exact IH].
    - reflexivity. }
  destruct (extract_loop _ _ _ _) as [h2 [l|e]]; cbn [snd] in X |- *; [discriminate | injection X as ->; reflexivity].
Qed.

(** Sampling logs are silenced during the body and the effective level is the same again afterwards, whether the body
    returns or raises. *)
Theorem C58_logs : forall A level parent (body : option nat -> res A),
  let r := disable_pymc_sampling_logs level parent body in
  effective (fst r) parent = effective level parent /\ snd r = body (Some 40%nat).
Proof. intros. split; reflexivity. Qed.
(** But a logger that had no level of its own has one afterwards: it no longer follows its parent. *)
Theorem C58_logs_refuted : forall A (body : option nat -> res A) parent parent', parent <> parent' ->
  let r := disable_pymc_sampling_logs None parent body in
  effective (fst r) parent' <> effective None parent'.
Proof. intros A body parent parent' H. cbn. exact H. Qed.

Print Assumptions C57_posterior_to_prior.
Print Assumptions C57_ppe_priors.
Print Assumptions C57_unusable_candidates.
Print Assumptions C57_unknown_prior.
Print Assumptions C58_projection.
Print Assumptions C58_model_restored.
Print Assumptions C58_no_observed.
