(** Proofs about redraws of the predictive explorer. *)
From Coq Require Import Reals List String Bool ZArith Lra Lia Sorting.Permutation Sorting.Sorted.
From Verif Require Import Base XR LawModel ExploreModel ExploreSpec.
Import ListNotations.
Local Open Scope string_scope.
Local Open Scope list_scope.
Local Open Scope R_scope.

Lemma existsb_app' : forall {A} (f : A -> bool) a b, existsb f (a ++ b) = existsb f a || existsb f b.
Proof. intros A f a b. induction a as [|x a IH]; cbn; [reflexivity|]. rewrite IH. apply orb_assoc. Qed.
Lemma has_setdefault_same : forall k v d, has k (setdefault k v d) = true.
Proof.
  intros k v d. unfold setdefault. destruct (has k d) eqn:E; [exact E|].
  unfold has. rewrite existsb_app'. cbn. rewrite String.eqb_refl. apply orb_true_r.
Qed.
Lemma has_setdefault_neq : forall k k' v d, k <> k' -> has k (setdefault k' v d) = has k d.
Proof.
  intros k k' v d N. unfold setdefault. destruct (has k' d); [reflexivity|].
  unfold has. rewrite existsb_app'. cbn. apply String.eqb_neq in N. rewrite String.eqb_sym, N. apply orb_false_r.
Qed.
Lemma has_setdefault : forall k k' v d, has k d = true -> has k (setdefault k' v d) = true.
Proof.
  intros k k' v d H. unfold setdefault. destruct (has k' d); [exact H|].
  unfold has in *. rewrite existsb_app', H. reflexivity.
Qed.
Lemma setdefault_has : forall k v d, has k d = true -> setdefault k v d = d.
Proof. intros k v d H. unfold setdefault. now rewrite H. Qed.
Lemma setdefault_new : forall k v d, has k d = false -> setdefault k v d = d ++ [(k, v)].
Proof. intros k v d H. unfold setdefault. now rewrite H. Qed.
Lemma has_getkw : forall k d, has k d = match getkw k d with Some _ => true | None => false end.
Proof. intros k d. induction d as [|[k' v] d IH]; cbn; [reflexivity|]. destruct (String.eqb k' k); cbn; [reflexivity|exact IH]. Qed.
Lemma getkw_app : forall k a b, getkw k (a ++ b) = match getkw k a with Some v => Some v | None => getkw k b end.
Proof. intros k a b. induction a as [|[k' v] a IH]; cbn; [reflexivity|]. destruct (String.eqb k' k); [reflexivity|exact IH]. Qed.
Lemma getkw_setdefault_neq : forall k k' v d, k <> k' -> getkw k (setdefault k' v d) = getkw k d.
Proof.
  intros k k' v d N. unfold setdefault. destruct (has k' d); [reflexivity|]. rewrite getkw_app. destruct (getkw k d); [reflexivity|].
  cbn. apply String.eqb_neq in N. now rewrite String.eqb_sym, N.
Qed.
Lemma getkw_setdefault_same : forall k v d, getkw k (setdefault k v d) = match getkw k d with Some w => Some w | None => Some v end.
Proof.
  intros k v d. unfold setdefault. rewrite has_getkw. destruct (getkw k d) eqn:E; [exact E|].
  rewrite getkw_app, E. cbn. now rewrite String.eqb_refl.
Qed.
Lemma getkw_pop_neq : forall k k' d, k <> k' -> getkw k (pop k' d) = getkw k d.
Proof.
  intros k k' d N. induction d as [|[k1 v] d IH]; cbn [pop filter fst getkw]; [reflexivity|].
  destruct (String.eqb k1 k') eqn:E; cbn [negb]; fold (pop k' d).
  - apply String.eqb_eq in E. subst. apply String.eqb_neq in N. rewrite String.eqb_sym, N. exact IH.
  - cbn [getkw]. rewrite IH. reflexivity.
Qed.
Lemma has_pop_neq : forall k k' d, k <> k' -> has k (pop k' d) = has k d.
Proof. intros. rewrite !has_getkw, getkw_pop_neq; auto. Qed.
Lemma pop_absent : forall k d, has k d = false -> pop k d = d.
Proof.
  intros k d. induction d as [|[k1 v] d IH]; cbn [has existsb fst]; intro H; [reflexivity|].
  apply orb_false_iff in H. destruct H as [H1 H2]. cbn [pop filter fst]. rewrite H1. cbn [negb]. f_equal. apply IH. exact H2.
Qed.
Lemma pop_app : forall k a b, pop k (a ++ b) = pop k a ++ pop k b.
Proof. intros k a b. unfold pop. apply filter_app. Qed.

Ltac neq := discriminate.

Section Drawing.
Variable sort : list R -> list R.
Variable kde : list R -> list R * list R.

(** ** Without histograms nothing of the past is kept. *)
Definition line_kw (n : nat) (kw : kwargs) : kwargs := setdefault "color" (VStr "0.5") (setdefault "alpha" (VNum (alpha n)) kw).

Definition line_state (n : nat) (kw0 kw : kwargs) : Prop := kw = kw0 \/ kw = line_kw n kw0.

Lemma line_kw_idem : forall n kw, line_kw n (line_kw n kw) = line_kw n kw.
Proof.
  intros n kw. unfold line_kw at 1. rewrite (setdefault_has "alpha").
  - apply setdefault_has. apply has_setdefault_same.
  - apply has_setdefault, has_setdefault_same.
Qed.

Lemma redraw_line : forall n refs kw c r, (c_kind c = "kde" \/ c_kind c = "ecdf") ->
  redraw sort kde n refs false kw c (Ok r) = redraw sort kde n refs false (line_kw n kw) c (Ok r)
  /\ fst (redraw sort kde n refs false kw c (Ok r)) = line_kw n kw.
Proof.
  intros n refs kw c r K.
  assert (E : plot_repr sort kde r (c_kind c) refs n kw = plot_repr sort kde r (c_kind c) refs n (line_kw n kw)
              /\ fst (plot_repr sort kde r (c_kind c) refs n kw) = line_kw n kw).
  { destruct K as [K|K]; rewrite K; unfold plot_repr; cbn [String.eqb Ascii.eqb Bool.eqb];
      unfold plot_kdes, plot_ecdfs; fold (line_kw n kw); fold (line_kw n (line_kw n kw)); rewrite line_kw_idem.
    - split; [reflexivity|]. destruct (r_rows r); [reflexivity|]. destruct (negb (plot_accepts (line_kw n kw))); reflexivity.
    - split; [reflexivity|]. destruct (r_rows r); [reflexivity|]. destruct (negb (plot_accepts (line_kw n kw))); reflexivity. }
  destruct E as [E1 E2]. unfold redraw. rewrite <- E1.
  destruct (plot_repr sort kde r (c_kind c) refs n kw) as [kw' out]. split; [reflexivity|exact E2].
Qed.

Lemma redraw_line_state : forall n refs custom kw0 kw c data, offered c -> is_hist c = false -> line_state n kw0 kw ->
  snd (redraw sort kde n refs custom kw c data) = snd (redraw sort kde n refs custom kw0 c data)
  /\ line_state n kw0 (fst (redraw sort kde n refs custom kw c data)).
Proof.
  intros n refs custom kw0 kw c data O H S.
  destruct data as [r|e].
  2:{ split; [reflexivity|exact S]. }
  destruct custom.
  { split; [reflexivity|exact S]. }
  assert (K : c_kind c = "kde" \/ c_kind c = "ecdf").
  { unfold offered in O. cbn in O. unfold is_hist in H. destruct O as [O|[O|[O|[]]]]; auto. rewrite <- O in H. discriminate H. }
  destruct (redraw_line n refs kw0 c r K) as [E1 E2].
  destruct S as [S|S]; subst kw.
  - split; [reflexivity|]. right. exact E2.
  - split; [now rewrite E1|]. right. rewrite <- E1. exact E2.
Qed.

Lemma session_line : forall n refs custom kw0 events kw, line_state n kw0 kw ->
  (forall c data, In (c, data) events -> offered c /\ is_hist c = false) ->
  snd (session sort kde n refs custom kw events)
  = map (fun e => snd (redraw sort kde n refs custom kw0 (fst e) (snd e))) events.
Proof.
  intros n refs custom kw0 events. induction events as [|[c data] es IH]; intros kw S H; [reflexivity|].
  cbn [session map fst snd]. destruct (H c data (or_introl eq_refl)) as [O I].
  destruct (redraw_line_state n refs custom kw0 kw c data O I S) as [E S'].
  destruct (redraw sort kde n refs custom kw c data) as [kw1 out]. cbn [fst snd] in *.
  specialize (IH kw1 S' (fun c' d' I' => H c' d' (or_intror I'))).
  destruct (session sort kde n refs custom kw1 es) as [kw2 outs]. cbn [snd] in *. now rewrite E, IH.
Qed.

(** ** Histograms of floats, or with the user's own bins, and without the user's own colour. *)
Definition hist_kw (n : nat) (b : value) (kw : kwargs) : kwargs :=
  setdefault "alpha" (VNum (alpha n)) (setdefault "histtype" (VStr "step") (setdefault "density" (VBool true)
    (setdefault "bins" b (setdefault "alpha" (VNum (alpha n)) kw)))).
Definition hist_colour (n : nat) : string * value := ("color", VColors (repeat "0.5" n)).

Definition hist_state (n : nat) (kw0 kw : kwargs) : Prop :=
  kw = kw0 \/ kw = setdefault "alpha" (VNum (alpha n)) kw0 \/ kw = hist_kw n (VStr "auto") kw0 \/ kw = hist_kw n (VStr "auto") kw0 ++ [hist_colour n].

Lemma hist_kw_color : forall n b kw, has "color" (hist_kw n b kw) = has "color" kw.
Proof. intros. unfold hist_kw. rewrite !has_setdefault_neq; [reflexivity|neq..]. Qed.
Lemma hist_kw_ls : forall n b kw, has "ls" (hist_kw n b kw) = has "ls" kw.
Proof. intros. unfold hist_kw. rewrite !has_setdefault_neq; [reflexivity|neq..]. Qed.

Lemma has_app_l : forall k a b, has k a = true -> has k (a ++ b) = true.
Proof. intros k a b H. unfold has in *. now rewrite existsb_app', H. Qed.

Lemma hist_kw_keys : forall n b kw k, In k ["alpha"; "bins"; "density"; "histtype"]%string -> has k (hist_kw n b kw) = true.
Proof.
  intros n b kw k I. unfold hist_kw. cbn in I. destruct I as [I|[I|[I|[I|[]]]]]; subst k.
  - apply has_setdefault_same.
  - apply has_setdefault, has_setdefault, has_setdefault, has_setdefault_same.
  - apply has_setdefault, has_setdefault, has_setdefault_same.
  - apply has_setdefault, has_setdefault_same.
Qed.

Lemma hist_kw_saturated : forall n b kw, (forall k, In k ["alpha"; "bins"; "density"; "histtype"]%string -> has k kw = true) -> hist_kw n b kw = kw.
Proof. intros n b kw H. unfold hist_kw. 
  rewrite (setdefault_has "alpha" _ kw) by (apply H; cbn; auto). rewrite (setdefault_has "bins") by (apply H; cbn; auto).
  rewrite (setdefault_has "density") by (apply H; cbn; auto). rewrite (setdefault_has "histtype") by (apply H; cbn; auto).
  apply setdefault_has. apply H; cbn; auto.
Qed.

(** The dictionary after the bins etc. have been added does not depend on which of these states it started from. *)
Lemma hist_kw_alpha : forall n b kw, hist_kw n b (setdefault "alpha" (VNum (alpha n)) kw) = hist_kw n b kw.
Proof. intros n b kw. unfold hist_kw. now rewrite (setdefault_has "alpha" _ (setdefault "alpha" _ kw)) by apply has_setdefault_same. Qed.

Lemma plot_hist_repr : forall r refs n kw, r_rows r <> [] ->
  plot_repr sort kde r "hist" refs n kw =
  let kw1 := setdefault "color" (VColors (repeat "0.5" n)) (hist_kw n (hist_bins r) kw) in
  if negb (hist_accepts (List.length (r_rows r)) kw1) then (kw1, (hist_ticks r, Some ValueError)) else
  (pop "ls" (pop "color" kw1),
   (hist_ticks r ++ [Hist (r_rows r) kw1; PooledHist (List.concat (r_rows r)) (pop "ls" (pop "color" kw1) ++ [("color", VStr "k"); ("ls", VStr "--")])]
     ++ plot_references refs, None)).
Proof.
  intros r refs n kw N. unfold plot_repr. cbn [String.eqb Ascii.eqb Bool.eqb]. unfold plot_hist.
  destruct (r_rows r) as [|row0 rows] eqn:E; [contradiction|]. reflexivity.
Qed.

Lemma hist_plot_state : forall r refs n kw0 kw, has "color" kw0 = false -> has "ls" kw0 = false ->
  (has "bins" kw0 = true \/ r_int r = false) -> hist_state n kw0 kw ->
  snd (plot_repr sort kde r "hist" refs n kw) = snd (plot_repr sort kde r "hist" refs n kw0)
  /\ hist_state n kw0 (fst (plot_repr sort kde r "hist" refs n kw)).
Proof.
  intros r refs n kw0 kw C L B S.
  destruct (r_rows r) as [|row0 rows] eqn:E.
  { unfold plot_repr. cbn [String.eqb Ascii.eqb Bool.eqb]. unfold plot_hist. rewrite E. cbn [fst snd]. split; [reflexivity|].
    destruct S as [S|[S|[S|S]]]; subst kw.
    - right. left. reflexivity.
    - right. left. apply setdefault_has, has_setdefault_same.
    - right. right. left. apply setdefault_has, hist_kw_keys. cbn; auto.
    - right. right. right. apply setdefault_has, has_app_l, hist_kw_keys. cbn; auto. }
  assert (NE : r_rows r <> []) by (rewrite E; discriminate).
  set (H := hist_kw n (VStr "auto") kw0).
  assert (HB : hist_kw n (hist_bins r) kw0 = H).
  { unfold H, hist_kw. destruct B as [B|B].
    - rewrite !(setdefault_has "bins"); auto; apply has_setdefault; exact B.
    - unfold hist_bins. now rewrite B. }
  assert (Hc : has "color" H = false) by (unfold H; now rewrite hist_kw_color).
  assert (Hl : has "ls" H = false) by (unfold H; now rewrite hist_kw_ls).
  assert (Hs : forall k, In k ["alpha"; "bins"; "density"; "histtype"]%string -> has k H = true) by (apply hist_kw_keys).
  (* the dictionary used for the first call is always the same *)
  assert (U : setdefault "color" (VColors (repeat "0.5" n)) (hist_kw n (hist_bins r) kw) = H ++ [hist_colour n]).
  { destruct S as [S|[S|[S|S]]]; subst kw.
    - rewrite HB. apply setdefault_new. exact Hc.
    - rewrite hist_kw_alpha, HB. apply setdefault_new. exact Hc.
    - rewrite hist_kw_saturated by exact Hs. apply setdefault_new. exact Hc.
    - rewrite hist_kw_saturated by (intros k I; apply has_app_l, Hs, I). apply setdefault_has.
      unfold has. rewrite existsb_app'. cbn. apply orb_true_r. }
  rewrite (plot_hist_repr r refs n kw NE), (plot_hist_repr r refs n kw0 NE). rewrite U.
  assert (U0 : setdefault "color" (VColors (repeat "0.5" n)) (hist_kw n (hist_bins r) kw0) = H ++ [hist_colour n]).
  { rewrite HB. apply setdefault_new. exact Hc. }
  rewrite U0. cbn zeta.
  assert (P : pop "ls" (pop "color" (H ++ [hist_colour n])) = H).
  { rewrite (pop_app "color"). cbn [pop filter fst hist_colour String.eqb Ascii.eqb Bool.eqb negb]. rewrite app_nil_r.
    rewrite (pop_absent "color" H Hc). apply pop_absent. exact Hl. }
  rewrite P. split; [reflexivity|].
  destruct (negb (hist_accepts (Datatypes.length (r_rows r)) (H ++ [hist_colour n]))); cbn [fst].
  - right. right. right. reflexivity.
  - right. right. left. reflexivity.
Qed.

Lemma session_hist : forall n refs custom kw0 events kw, has "color" kw0 = false -> has "ls" kw0 = false -> hist_state n kw0 kw ->
  (forall c data, In (c, data) events -> is_hist c = true /\ (has "bins" kw0 = true \/ forall r, data = Ok r -> r_int r = false)) ->
  snd (session sort kde n refs custom kw events)
  = map (fun e => snd (redraw sort kde n refs custom kw0 (fst e) (snd e))) events.
Proof.
  intros n refs custom kw0 events. induction events as [|[c data] es IH]; intros kw C L S H; [reflexivity|].
  cbn [session map fst snd]. destruct (H c data (or_introl eq_refl)) as [K B].
  assert (E : snd (redraw sort kde n refs custom kw c data) = snd (redraw sort kde n refs custom kw0 c data)
              /\ hist_state n kw0 (fst (redraw sort kde n refs custom kw c data))).
  { destruct data as [r|e]; [|split; [reflexivity|exact S]].
    destruct custom; [split; [reflexivity|exact S]|].
    assert (B' : has "bins" kw0 = true \/ r_int r = false) by (destruct B as [B|B]; auto).
    unfold is_hist in K. apply String.eqb_eq in K.
    destruct (hist_plot_state r refs n kw0 kw C L B' S) as [E1 E2]. unfold redraw. rewrite K.
    destruct (plot_repr sort kde r "hist" refs n kw) as [k1 o1]. destruct (plot_repr sort kde r "hist" refs n kw0) as [k2 o2].
    cbn [fst snd] in *. subst o1. split; [reflexivity|exact E2]. }
  destruct E as [E S']. destruct (redraw sort kde n refs custom kw c data) as [kw1 out]. cbn [fst snd] in *.
  specialize (IH kw1 C L S' (fun c' d' I' => H c' d' (or_intror I'))).
  destruct (session sort kde n refs custom kw1 es) as [kw2 outs]. cbn [snd] in *. now rewrite E, IH.
Qed.

(** ** A histogram leaves its bins behind for good. *)
Definition keeps (k : string) : Prop := k <> "color" /\ k <> "ls".

Lemma getkw_setdefault_some : forall k k' v w d, getkw k d = Some w -> getkw k (setdefault k' v d) = Some w.
Proof.
  intros k k' v w d H. destruct (String.string_dec k k') as [->|N].
  - now rewrite getkw_setdefault_same, H.
  - now rewrite getkw_setdefault_neq.
Qed.

Lemma plot_repr_keeps : forall r kind refs n kw k w, keeps k -> getkw k kw = Some w -> getkw k (fst (plot_repr sort kde r kind refs n kw)) = Some w.
Proof.
  intros r kind refs n kw k w [K1 K2] H. unfold plot_repr. destruct (String.eqb kind "hist").
  - unfold plot_hist. destruct (r_rows r).
    + cbn [fst]. now apply getkw_setdefault_some.
    + set (kw1 := setdefault "color" _ _).
      assert (G : getkw k kw1 = Some w) by (unfold kw1; repeat apply getkw_setdefault_some; exact H).
      destruct (negb _); cbn [fst]; [exact G|]. rewrite !getkw_pop_neq; assumption.
  - destruct (String.eqb kind "kde"); [|destruct (String.eqb kind "ecdf")].
    + unfold plot_kdes. destruct (r_rows r); [|destruct (negb _)]; cbn [fst]; repeat apply getkw_setdefault_some; exact H.
    + unfold plot_ecdfs. destruct (r_rows r); [|destruct (negb _)]; cbn [fst]; repeat apply getkw_setdefault_some; exact H.
    + cbn [fst]. apply getkw_setdefault_some. exact H.
Qed.

Lemma redraw_keeps : forall n refs custom kw c data k w, keeps k -> getkw k kw = Some w -> getkw k (fst (redraw sort kde n refs custom kw c data)) = Some w.
Proof.
  intros n refs custom kw c data k w K H. unfold redraw. destruct data as [r|e]; [|exact H]. destruct custom; [exact H|].
  assert (P := plot_repr_keeps r (c_kind c) refs n kw k w K H).
  destruct (plot_repr sort kde r (c_kind c) refs n kw) as [kw' out]. exact P.
Qed.

Lemma redraw_hist_bins : forall n refs kw c r, is_hist c = true -> r_rows r <> [] ->
  getkw "bins" (fst (redraw sort kde n refs false kw c (Ok r))) = Some (match getkw "bins" kw with Some b => b | None => hist_bins r end).
Proof.
  intros n refs kw c r K N. unfold redraw. unfold is_hist in K. apply String.eqb_eq in K. rewrite K, (plot_hist_repr r refs n kw N). cbn zeta.
  set (kw1 := setdefault "color" _ _).
  assert (G : getkw "bins" kw1 = Some (match getkw "bins" kw with Some b => b | None => hist_bins r end)).
  { unfold kw1, hist_kw. rewrite !(getkw_setdefault_neq "bins") by neq. rewrite getkw_setdefault_same.
    rewrite (getkw_setdefault_neq "bins") by neq. destruct (getkw "bins" kw); reflexivity. }
  destruct (negb _); cbn [fst]; [exact G|]. rewrite !getkw_pop_neq by neq. exact G.
Qed.

Lemma line_with_bins_fails : forall n refs kw c r b, (c_kind c = "kde" \/ c_kind c = "ecdf") -> r_rows r <> [] -> getkw "bins" kw = Some b ->
  let o := snd (redraw sort kde n refs false kw c (Ok r)) in snd o = Some AttributeError /\ shows_no_sample o.
Proof.
  intros n refs kw c r b K N B. cbn zeta. unfold redraw.
  assert (A : plot_accepts (line_kw n kw) = false).
  { unfold plot_accepts. assert (Hb : has "bins" (line_kw n kw) = true).
    { rewrite has_getkw. unfold line_kw. erewrite getkw_setdefault_some; [reflexivity|]. apply getkw_setdefault_some. exact B. }
    now rewrite Hb. }
  assert (P : plot_repr sort kde r (c_kind c) refs n kw = (line_kw n kw, ([], Some AttributeError))).
  { destruct K as [K|K]; rewrite K; unfold plot_repr; cbn [String.eqb Ascii.eqb Bool.eqb]; unfold plot_kdes, plot_ecdfs; fold (line_kw n kw);
      destruct (r_rows r); try contradiction; rewrite A; reflexivity. }
  rewrite P. cbn [fst snd]. split; [reflexivity|]. intros x I. cbn in I. destruct I as [I|[I|[]]]; subst x.
  - destruct (c_set_xlim c); exact I.
  - destruct (c_set_ylim c); exact I.
Qed.

Lemma hist_with_colour_fails : forall n refs kw c r s, is_hist c = true -> (2 <= List.length (r_rows r))%nat -> getkw "color" kw = Some (VStr s) ->
  let o := redraw sort kde n refs false kw c (Ok r) in
  snd (snd o) = Some ValueError /\ shows_no_sample (snd o) /\ getkw "color" (fst o) = Some (VStr s).
Proof.
  intros n refs kw c r s K N C. cbn zeta. unfold redraw. unfold is_hist in K. apply String.eqb_eq in K.
  assert (NE : r_rows r <> []) by (intro E; rewrite E in N; cbn in N; lia).
  rewrite K, (plot_hist_repr r refs n kw NE). cbn zeta. set (kw1 := setdefault "color" _ _).
  assert (G : getkw "color" kw1 = Some (VStr s)).
  { unfold kw1. apply getkw_setdefault_some. unfold hist_kw. repeat apply getkw_setdefault_some. exact C. }
  assert (A : hist_accepts (List.length (r_rows r)) kw1 = false).
  { unfold hist_accepts. rewrite G. apply Nat.eqb_neq. lia. }
  rewrite A. cbn [negb fst snd]. split; [reflexivity|split; [|exact G]]. intros x I. apply in_app_or in I. destruct I as [I|I].
  - cbn in I. destruct I as [I|[I|[]]]; subst x.
    + destruct (c_set_xlim c); exact I.
    + destruct (c_set_ylim c); exact I.
  - unfold hist_ticks in I. destruct (r_int r && _); [|contradiction]. cbn in I. destruct I as [I|[]]; subst x. exact I.
Qed.

Lemma line_colour : forall n refs kw c r, (c_kind c = "kde" \/ c_kind c = "ecdf") ->
  getkw "color" (fst (redraw sort kde n refs false kw c (Ok r))) = Some (match getkw "color" kw with Some v => v | None => VStr "0.5" end).
Proof.
  intros n refs kw c r K. destruct (redraw_line n refs kw c r K) as [_ E]. rewrite E. unfold line_kw.
  rewrite getkw_setdefault_same, getkw_setdefault_neq by neq. destruct (getkw "color" kw); reflexivity.
Qed.

Lemma session_app : forall n refs custom a kw b,
  snd (session sort kde n refs custom kw (a ++ b))
  = snd (session sort kde n refs custom kw a) ++ snd (session sort kde n refs custom (fst (session sort kde n refs custom kw a)) b).
Proof.
  intros n refs custom a. induction a as [|[c data] a IH]; intros kw b; [reflexivity|].
  cbn [app session]. destruct (redraw sort kde n refs custom kw c data) as [kw1 out]. specialize (IH kw1 b).
  destruct (session sort kde n refs custom kw1 (a ++ b)) as [k1 o1]. destruct (session sort kde n refs custom kw1 a) as [k2 o2].
  cbn [fst snd app] in *. now rewrite IH.
Qed.

Lemma session_keeps : forall n refs custom events kw k w, keeps k -> getkw k kw = Some w ->
  getkw k (fst (session sort kde n refs custom kw events)) = Some w.
Proof.
  intros n refs custom events. induction events as [|[c data] es IH]; intros kw k w K H; [exact H|].
  cbn [session]. assert (H1 := redraw_keeps n refs custom kw c data k w K H).
  destruct (redraw sort kde n refs custom kw c data) as [kw1 out]. cbn [fst] in H1. specialize (IH kw1 k w K H1).
  destruct (session sort kde n refs custom kw1 es) as [kw2 outs]. exact IH.
Qed.

Lemma session_length : forall n refs custom events kw, List.length (snd (session sort kde n refs custom kw events)) = List.length events.
Proof.
  intros n refs custom events. induction events as [|[c data] es IH]; intro kw; [reflexivity|].
  cbn [session]. destruct (redraw sort kde n refs custom kw c data) as [kw1 out]. specialize (IH kw1).
  destruct (session sort kde n refs custom kw1 es) as [kw2 outs]. cbn [snd List.length] in *. now rewrite IH.
Qed.

(** The redraw in the middle of a session, from the dictionary left by those before. *)
Lemma session_mid : forall n refs custom kw a c data b,
  nth_error (snd (session sort kde n refs custom kw (a ++ (c, data) :: b))) (List.length a)
  = Some (snd (redraw sort kde n refs custom (fst (session sort kde n refs custom kw a)) c data)).
Proof.
  intros n refs custom kw a c data b. rewrite session_app. rewrite nth_error_app2 by (rewrite session_length; lia).
  rewrite session_length, Nat.sub_diag. cbn [session].
  destruct (redraw sort kde n refs custom (fst (session sort kde n refs custom kw a)) c data) as [kw1 out].
  destruct (session sort kde n refs custom kw1 b) as [kw2 outs]. reflexivity.
Qed.

Lemma session_fst_app : forall n refs custom a kw b,
  fst (session sort kde n refs custom kw (a ++ b)) = fst (session sort kde n refs custom (fst (session sort kde n refs custom kw a)) b).
Proof.
  intros n refs custom a. induction a as [|[c data] a IH]; intros kw b; [reflexivity|].
  cbn [app session]. destruct (redraw sort kde n refs custom kw c data) as [kw1 out]. specialize (IH kw1 b).
  destruct (session sort kde n refs custom kw1 (a ++ b)) as [k1 o1]. destruct (session sort kde n refs custom kw1 a) as [k2 o2]. exact IH.
Qed.

(** ** A line plot followed by a histogram ends the session. *)
Definition dead (kw : kwargs) : Prop := (exists s, getkw "color" kw = Some (VStr s)) /\ exists b, getkw "bins" kw = Some b.

Lemma dead_redraw : forall n refs kw c r, dead kw -> offered c -> (2 <= List.length (r_rows r))%nat ->
  let o := redraw sort kde n refs false kw c (Ok r) in failed (snd o) /\ shows_no_sample (snd o) /\ dead (fst o).
Proof.
  intros n refs kw c r [[s C] [b B]] O N. cbn zeta.
  assert (NE : r_rows r <> []) by (intro E; rewrite E in N; cbn in N; lia).
  assert (KB : getkw "bins" (fst (redraw sort kde n refs false kw c (Ok r))) = Some b) by (apply redraw_keeps; [split; neq|exact B]).
  unfold offered in O. cbn in O. destruct O as [K|K].
  - assert (I : is_hist c = true) by (unfold is_hist; rewrite <- K; reflexivity).
    destruct (hist_with_colour_fails n refs kw c r s I N C) as [E [S G]]. split; [eexists; exact E|split; [exact S|]].
    split; [eexists; exact G|eexists; exact KB].
  - assert (K' : c_kind c = "kde" \/ c_kind c = "ecdf") by (destruct K as [K|[K|[]]]; auto).
    destruct (line_with_bins_fails n refs kw c r b K' NE B) as [E S]. split; [eexists; exact E|split; [exact S|]].
    split; [|eexists; exact KB]. rewrite (line_colour n refs kw c r K'), C. now exists s.
Qed.

Lemma dead_session : forall n refs events kw, dead kw ->
  (forall c data, In (c, data) events -> offered c /\ exists r, data = Ok r /\ (2 <= List.length (r_rows r))%nat) ->
  Forall (fun o => failed o /\ shows_no_sample o) (snd (session sort kde n refs false kw events)).
Proof.
  intros n refs events. induction events as [|[c data] es IH]; intros kw D H; [constructor|].
  cbn [session]. destruct (H c data (or_introl eq_refl)) as [O [r [Er N]]]. subst data.
  destruct (dead_redraw n refs kw c r D O N) as [F [S D']].
  destruct (redraw sort kde n refs false kw c (Ok r)) as [kw1 out]. cbn [fst snd] in *.
  specialize (IH kw1 D' (fun c' d' I' => H c' d' (or_intror I'))).
  destruct (session sort kde n refs false kw1 es) as [kw2 outs]. cbn [snd] in *. constructor; auto.
Qed.
End Drawing.
