(** Property theorems for what the prior predictive assistant shows: C82. *)
From Coq Require Import List Bool Arith ZArith Reals Lra Lia Permutation.
Local Open Scope R_scope.
From Verif Require Import Base XR TextModel PpaModel PpaProps ScreenModel.
Import ListNotations.

(* ---------------- lists of axes ---------------- *)
Section Axes.
Context {refs : Type}.
Notation axis := (axis refs).
Notation blank := (blank refs).
Implicit Type axes : list axis.

Lemma put_length axes : forall n (a : axis), List.length (put_axis refs axes n a) = List.length axes.
Proof. induction axes as [|b l IH]; intros [|n] a; cbn; auto. Qed.
Lemma put_same axes : forall n (a : axis), (n < List.length axes)%nat -> nth_error (put_axis refs axes n a) n = Some a.
Proof. induction axes as [|b l IH]; intros [|n] a H; cbn in *; try lia; auto. apply IH. lia. Qed.
Lemma put_other axes : forall n m (a : axis), n <> m -> nth_error (put_axis refs axes n a) m = nth_error axes m.
Proof. induction axes as [|b l IH]; intros [|n] [|m] a H; cbn; auto; try congruence. Qed.

Section Draw.
Variable F : nat -> axis.
Let draw := fold_left (fun axes (p : nat * nat) => put_axis refs axes (fst p) (F (snd p))).
Lemma draw_length drawn : forall axes, List.length (draw drawn axes) = List.length axes.
Proof. induction drawn as [|p l IH]; intro axes; cbn; [reflexivity|]. unfold draw in IH. rewrite IH. apply put_length. Qed.
Lemma draw_out drawn : forall axes n, ~ In n (map fst drawn) -> nth_error (draw drawn axes) n = nth_error axes n.
Proof. induction drawn as [|p l IH]; intros axes n H; cbn; [reflexivity|]. unfold draw in IH. rewrite IH; [apply put_other; intro E; apply H; left; exact E|]. intro X. apply H. right. exact X. Qed.
Lemma draw_in drawn : forall axes n i, NoDup (map fst drawn) -> In (n, i) drawn -> (n < List.length axes)%nat -> nth_error (draw drawn axes) n = Some (F i).
Proof.
  induction drawn as [|p l IH]; intros axes n i ND HI HL; [destruct HI|]. cbn in ND. inversion ND as [|x y N1 N2]; subst. cbn. destruct HI as [->|HI].
  - change (nth_error (draw l (put_axis refs axes n (F i))) n = Some (F i)). rewrite draw_out by exact N1. apply put_same, HL.
  - apply IH; [exact N2|exact HI|]. rewrite put_length. exact HL.
Qed.
End Draw.

Section Limits.
Variable L : R * R.
Let limit := fold_left (fun axes n => put_axis refs axes n (mkAxis refs (a_content refs (nth n axes blank)) L)).
Lemma limit_length fig : forall axes, List.length (limit fig axes) = List.length axes.
Proof. induction fig as [|p l IH]; intro axes; cbn; [reflexivity|]. unfold limit in IH. rewrite IH. apply put_length. Qed.
Lemma limit_out fig : forall axes n, ~ In n fig -> nth_error (limit fig axes) n = nth_error axes n.
Proof. induction fig as [|p l IH]; intros axes n H; cbn; [reflexivity|]. unfold limit in IH. rewrite IH; [apply put_other; intro E; apply H; left; exact E|]. intro X. apply H. right. exact X. Qed.
Lemma limit_in fig : forall axes n a, NoDup fig -> In n fig -> nth_error axes n = Some a -> nth_error (limit fig axes) n = Some (mkAxis refs (a_content refs a) L).
Proof.
  induction fig as [|p l IH]; intros axes n a ND HI HE; [destruct HI|]. inversion ND as [|x y N1 N2]; subst. cbn. destruct HI as [->|HI].
  - change (nth_error (limit l (put_axis refs axes n (mkAxis refs (a_content refs (nth n axes blank)) L))) n = Some (mkAxis refs (a_content refs a) L)).
    rewrite limit_out by exact N1. rewrite put_same; [|apply nth_error_Some; congruence]. rewrite (nth_error_nth _ _ blank HE). reflexivity.
  - apply IH; [exact N2|exact HI|]. rewrite put_other; [exact HE|]. intros ->. contradiction.
Qed.
End Limits.
End Axes.

Lemma combine_in (fig batch : list nat) : forall j n i, nth_error fig j = Some n -> nth_error batch j = Some i -> In (n, i) (combine fig batch).
Proof. revert batch. induction fig as [|f fig IH]; intros [|b batch] [|j] n i; cbn; try discriminate; [intros [= ->] [= ->]; auto|]. intros H1 H2. right. eapply IH; eassumption. Qed.
Lemma combine_fst_nodup (fig batch : list nat) : NoDup fig -> NoDup (map fst (combine fig batch)).
Proof.
  revert batch. induction fig as [|f fig IH]; intros [|b batch] H; cbn; try constructor; inversion H; subst; auto.
  intro X. apply in_map_iff in X. destruct X as ((n & i) & E & X). cbn in E. subst. apply in_combine_l in X. contradiction.
Qed.
Lemma combine_at (fig batch : list nat) : forall n i, In (n, i) (combine fig batch) -> exists j, nth_error fig j = Some n /\ nth_error batch j = Some i.
Proof.
  revert batch. induction fig as [|f fig IH]; intros [|b batch] n i H; cbn in H; try tauto. destruct H as [[= -> ->]|H]; [exists 0%nat; auto|].
  destruct (IH _ _ _ H) as (j & A & B). exists (S j). auto.
Qed.
Lemma low_spec (es : list (R * R)) : forall m, let low := fold_left (fun m x => Rmin (fst x) m) es m in
  low <= m /\ (forall e, In e es -> low <= fst e) /\ (low = m \/ exists e, In e es /\ low = fst e).
Proof.
  induction es as [|e es IH]; intros m low; cbn in low; [unfold low; split; [lra|split; [intros ? []|auto]]|]. destruct (IH (Rmin (fst e) m)) as (A & B & C). fold low in A, B, C.
  split; [eapply Rle_trans; [exact A|apply Rmin_r]|]. split.
  - intros x [<-|X]; [eapply Rle_trans; [exact A|apply Rmin_l]|auto].
  - destruct C as [C|(x & X & Y)]; [|right; exists x; cbn; auto]. assert (D : Rmin (fst e) m = fst e \/ Rmin (fst e) m = m) by (unfold Rmin; destruct (Rle_dec (fst e) m); auto); destruct D as [D|D]; rewrite D in C; [right; exists e; cbn; auto|auto].
Qed.
Lemma high_spec (es : list (R * R)) : forall m, let high := fold_left (fun m x => Rmax (snd x) m) es m in
  m <= high /\ (forall e, In e es -> snd e <= high) /\ (high = m \/ exists e, In e es /\ high = snd e).
Proof.
  induction es as [|e es IH]; intros m high; cbn in high; [unfold high; split; [lra|split; [intros ? []|auto]]|]. destruct (IH (Rmax (snd e) m)) as (A & B & C). fold high in A, B, C.
  split; [eapply Rle_trans; [|exact A]; apply Rmax_r|]. split.
  - intros x [<-|X]; [eapply Rle_trans; [|exact A]; apply Rmax_l|auto].
  - destruct C as [C|(x & X & Y)]; [|right; exists x; cbn; auto]. assert (D : Rmax (snd e) m = snd e \/ Rmax (snd e) m = m) by (unfold Rmax; destruct (Rle_dec (snd e) m); auto); destruct D as [D|D]; rewrite D in C; [right; exists e; cbn; auto|auto].
Qed.
Lemma floor_spec x : floor x <= x < floor x + 1.
Proof. unfold floor. destruct (base_Int_part x) as [A B]. lra. Qed.
Lemma ceil_spec x : ceil x - 1 < x <= ceil x.
Proof. unfold ceil. pose proof (floor_spec (- x)). lra. Qed.

(* ---------------- reading the screen ---------------- *)
Section Screen.
Variable w : world.
Variable refs : Type.
Variable nothing : refs.
Variable literal : text -> option refs.
Variable write : refs -> text.
Variable extent : nat -> style -> refs -> R * R.
Notation show := (show w refs nothing literal write extent).
Notation step := (step w refs nothing literal extent).
Notation steps := (steps w refs nothing literal extent).
Notation opening := (opening w refs write extent).
Notation screen := (screen refs).
Notation plot_pp_samples := (plot_pp_samples refs extent).
Notation blank := (blank refs).

(** The j-th panel of the figure. *)
Definition panel (c : screen) (j : nat) : option (axis refs) :=
  match nth_error (c_fig refs c) j with Some n => nth_error (c_axes refs c) n | None => None end.
(** The panels are the axis range of every drawn sample, widened to whole numbers and no further. *)
Definition common_range (k : style) (r : refs) (batch : list nat) (lim : R * R) : Prop :=
  (forall i, In i batch -> fst lim <= fst (extent i k r) /\ snd (extent i k r) <= snd lim) /\
  (exists i, In i batch /\ fst lim = floor (fst (extent i k r))) /\ (exists i, In i batch /\ snd lim = ceil (snd (extent i k r))).

Lemma plotted axes fig batch r k share axes' : NoDup fig -> (forall n, In n fig -> (n < List.length axes)%nat) ->
  plot_pp_samples axes fig batch r k share = Ok axes' ->
  List.length axes' = List.length axes /\
  (forall j n i, nth_error fig j = Some n -> nth_error batch j = Some i -> exists a, nth_error axes' n = Some a /\ a_content refs a = Sample refs i k r /\
     (share = false -> a_xlim refs a = extent i k r)) /\
  (forall n a', nth_error axes' n = Some a' -> (exists i, In i batch /\ a_content refs a' = Sample refs i k r) \/ (exists a, nth_error axes n = Some a /\ a_content refs a' = a_content refs a)) /\
  (share = true -> (List.length batch <= List.length fig)%nat -> fig <> [] -> exists lim, common_range k r batch lim /\
     forall n a, In n fig -> nth_error axes' n = Some a -> a_xlim refs a = lim).
Proof.
  intros ND HL. unfold ScreenModel.plot_pp_samples. set (drawn := combine fig batch). set (F := fun i => mkAxis refs (Sample refs i k r) (extent i k r)).
  change (fold_left _ drawn axes) with (fold_left (fun axes (p : nat * nat) => put_axis refs axes (fst p) (F (snd p))) drawn axes).
  set (ax1 := fold_left _ drawn axes). pose proof (combine_fst_nodup fig batch ND) as NF. fold drawn in NF.
  assert (L1 : List.length ax1 = List.length axes) by apply (draw_length F).
  assert (D1 : forall j n i, nth_error fig j = Some n -> nth_error batch j = Some i -> nth_error ax1 n = Some (F i)).
  { intros j n i E1 E2. apply (draw_in F); [exact NF|eapply combine_in; eassumption|]. apply HL. eapply nth_error_In, E1. }
  assert (C1 : forall n a', nth_error ax1 n = Some a' -> (exists i, In i batch /\ a_content refs a' = Sample refs i k r) \/ (exists a, nth_error axes n = Some a /\ a_content refs a' = a_content refs a)).
  { intros n a' E. destruct (in_dec Nat.eq_dec n (map fst drawn)) as [X|X].
    - apply in_map_iff in X. destruct X as ((m & i) & Em & X). cbn in Em. subst m. left. exists i. split; [eapply in_combine_r, X|].
      assert (Y : nth_error ax1 n = Some (F i)). { apply (draw_in F); [exact NF|exact X|]. apply HL. eapply in_combine_l, X. }
      rewrite Y in E. injection E as <-. reflexivity.
    - right. exists a'. split; [|reflexivity]. rewrite <- E. symmetry. apply (draw_out F), X. }
  destruct share.
  - destruct (map (fun p => extent (snd p) k r) drawn) as [|e es] eqn:Ee.
    + destruct fig as [|n fig]; [|discriminate]. intros [= <-]. split; [exact L1|]. split; [intros [|j] n i H; discriminate H|]. split; [exact C1|]. intros _ _ []. reflexivity.
    + set (low := fold_left _ es _). set (high := fold_left _ es _). set (L := (floor low, ceil high)).
      set (ax2 := fold_left _ fig ax1). intros [= <-].
      assert (L2 : List.length ax2 = List.length ax1) by apply (limit_length L).
      assert (E2 : forall n a', nth_error ax2 n = Some a' -> exists a, nth_error ax1 n = Some a /\ a_content refs a' = a_content refs a).
      { intros n a' E. destruct (nth_error ax1 n) as [a|] eqn:Ea.
        - exists a. split; [reflexivity|]. destruct (in_dec Nat.eq_dec n fig) as [X|X].
          + pose proof (limit_in L fig ax1 n a ND X Ea) as Y. unfold ax2 in E. rewrite Y in E. injection E as <-. reflexivity.
          + pose proof (limit_out L fig ax1 n X) as Y. unfold ax2 in E. rewrite Y, Ea in E. injection E as <-. reflexivity.
        - exfalso. apply nth_error_None in Ea. assert (X : (n < List.length ax2)%nat) by (apply nth_error_Some; congruence). lia. }
      split; [congruence|]. split; [|split].
      * intros j n i Ej Ei. pose proof (D1 j n i Ej Ei) as Y. eexists. split; [apply (limit_in L); [exact ND|eapply nth_error_In, Ej|exact Y]|]. split; [reflexivity|discriminate].
      * intros n a' E. destruct (E2 n a' E) as (a & Ea & Ec). destruct (C1 n a Ea) as [(i & Hi & X)|(b & Hb & X)]; rewrite Ec, X; eauto.
      * intros _ HB HF. exists L. split.
        -- destruct (low_spec es (fst e)) as (A1 & A2 & A3). destruct (high_spec es (snd e)) as (B1 & B2 & B3). fold low in A1, A2, A3. fold high in B1, B2, B3.
           assert (IN : forall x, In x (e :: es) <-> exists i, In i batch /\ x = extent i k r).
           { intro x. rewrite <- Ee, in_map_iff. split.
             - intros ((n & i) & <- & X). exists i. split; [eapply in_combine_r, X|reflexivity].
             - intros (i & Hi & ->). apply In_nth_error in Hi. destruct Hi as (j & Ej).
               assert (Lj : (j < List.length fig)%nat) by (apply Nat.lt_le_trans with (List.length batch); [apply nth_error_Some; congruence|exact HB]).
               apply nth_error_Some in Lj. destruct (nth_error fig j) as [n|] eqn:En; [|congruence]. exists (n, i). split; [reflexivity|]. eapply combine_in; eassumption. }
           split; [|split].
           ++ intros i Hi. unfold L. cbn [fst snd]. pose proof (floor_spec low) as FS. pose proof (ceil_spec high) as CS.
              assert (X : In (extent i k r) (e :: es)) by (apply IN; eauto).
              destruct X as [<-|X]; [lra|]. specialize (A2 _ X). specialize (B2 _ X). lra.
           ++ assert (X : exists x, In x (e :: es) /\ low = fst x) by (destruct A3 as [A3|(x & X & Y)]; [exists e; cbn; auto|exists x; cbn; auto]).
              destruct X as (x & X & E). apply IN in X. destruct X as (i & Hi & ->). exists i. split; [exact Hi|]. cbn. rewrite E. reflexivity.
           ++ assert (X : exists x, In x (e :: es) /\ high = snd x) by (destruct B3 as [B3|(x & X & Y)]; [exists e; cbn; auto|exists x; cbn; auto]).
              destruct X as (x & X & E). apply IN in X. destruct X as (i & Hi & ->). exists i. split; [exact Hi|]. cbn. rewrite E. reflexivity.
        -- intros n a Hn E. assert (X : (n < List.length ax1)%nat) by (rewrite L1; auto). apply nth_error_Some in X. destruct (nth_error ax1 n) as [b|] eqn:Eb; [|congruence].
           pose proof (limit_in L fig ax1 n b ND Hn Eb) as Y. unfold ax2 in E. rewrite Y in E. injection E as <-. reflexivity.
  - intros [= <-]. split; [exact L1|]. split; [|split; [exact C1|discriminate]]. intros j n i Ej Ei. exists (F i). split; [apply (D1 j); assumption|]. split; reflexivity.
Qed.

(* ---------------- how many samples the first batch has ---------------- *)
Lemma far_loop_all below bad rest D : forall new, far_loop below bad rest new = Some (Ok D) -> new <> D -> ~ In D rest -> forall v, In v rest -> bad v = true.
Proof using.
  clear. induction rest as [|x rest IH]; intros new E N H v Hv; [destruct Hv|]. cbn in E. destruct (bad new) eqn:Eb; [|congruence].
  assert (X : x <> D) by (intros ->; apply H; left; reflexivity). destruct Hv as [->|Hv].
  - destruct (bad v) eqn:Ev; [reflexivity|]. destruct rest; cbn in E; rewrite Ev in E; congruence.
  - eapply IH; [exact E|exact X| |exact Hv]. intro Y. apply H. right. exact Y.
Qed.
Lemma near_loop_all draws bad rest : forall new, near_loop draws bad rest new = Some draws -> new <> draws -> ~ In draws rest -> forall v, In v rest -> bad v = true.
Proof using.
  clear. induction rest as [|x rest IH]; intros new E N H v Hv; [destruct Hv|]. cbn in E. destruct (bad new) eqn:Eb; [|congruence].
  assert (X : x <> draws) by (intros ->; apply H; left; reflexivity). destruct Hv as [->|Hv].
  - destruct (bad v) eqn:Ev; [reflexivity|]. destruct rest; cbn in E; rewrite Ev in E; congruence.
  - eapply IH; [exact E|exact X| |exact Hv]. intro Y. apply H. right. exact Y.
Qed.
Lemma far_batch_incl draws order below n : forall shown batch new out, far_batch draws order below n shown batch new = Some (Ok out) -> incl batch out.
Proof using.
  clear. induction n as [|n IH]; intros shown batch new out; cbn; [intros [= ->]; apply incl_refl|]. destruct (far_loop _ _ _ new) as [[r|e]|]; try discriminate.
  intros H i Hi. apply (IH _ _ _ _ H). destruct (Nat.eqb r draws); [exact Hi|apply in_app_iff; auto].
Qed.
Lemma target_batch_incl draws torder tdist n : forall batch new ds out d, target_batch draws torder tdist n batch new ds = Some (out, d) -> incl batch out.
Proof using.
  clear. induction n as [|n IH]; intros batch new ds out d; cbn; [intros [= -> ->]; apply incl_refl|].
  destruct (match new with None => _ | Some _ => _ end) as [r|]; [|discriminate]. intros H i Hi.
  destruct (Nat.eqb r draws); apply IH in H; apply H; [exact Hi|apply in_app_iff; auto].
Qed.
Lemma far_batch_full draws order below n : (forall p, (p < draws)%nat -> Permutation (order p) (seq 0 draws)) -> forall shown batch new out,
  in_range draws batch -> batch <> [] -> In new batch \/ (new = draws /\ incl (unseen draws shown) batch) ->
  (forall v, below = Ok v -> (v <= draws)%nat) ->
  far_batch draws order below n shown batch new = Some (Ok out) -> List.length out = (List.length batch + n)%nat \/ incl (unseen draws shown) out.
Proof using.
  clear. intros OA. induction n as [|n IH]; intros shown batch new out HR NE HN HB E; [cbn in E; injection E as <-; left; lia|].
  pose proof (far_batch_incl _ _ _ _ _ _ _ _ E) as INC. cbn in E. set (bad := fun v => mem v batch || mem v shown) in E.
  destruct HN as [HN|[-> HN]]; [|right; eapply incl_tran; eassumption].
  assert (LB : (last batch 0 < draws)%nat). { unfold in_range in HR. rewrite Forall_forall in HR. apply HR. destruct (exists_last NE) as (l & x & ->). rewrite last_last. apply in_app_iff. cbn. auto. }
  destruct (far_loop below bad (rev (order (last batch 0%nat))) new) as [[r|e]|] eqn:El; try discriminate.
  destruct (Nat.eqb_spec r draws) as [->|Nr].
  - right. apply incl_tran with batch; [|exact INC]. intros v Hv. apply unseen_in in Hv. destruct Hv as [V1 V2].
    assert (X : bad v = true).
    { apply (far_loop_all below bad (rev (order (last batch 0%nat))) draws new El).
      - intros ->. unfold in_range in HR. rewrite Forall_forall in HR. specialize (HR _ HN). lia.
      - intro Y. apply in_rev in Y. apply (Permutation_in _ (OA _ LB)) in Y. apply in_seq in Y. lia.
      - apply -> in_rev. apply (Permutation_in _ (Permutation_sym (OA _ LB))). apply in_seq. lia. }
    unfold bad in X. apply orb_true_iff in X. rewrite !mem_spec in X. tauto.
  - assert (Rr : (r < draws)%nat).
    { pose proof (far_loop_safe below bad _ _ _ El) as [Hr [->|[H|H]]].
      - unfold in_range in HR. rewrite Forall_forall in HR. auto.
      - apply in_rev in H. apply (Permutation_in _ (OA _ LB)) in H. apply in_seq in H. lia.
      - apply HB in H. lia. }
    apply IH in E.
    + rewrite app_length in E. cbn in E. destruct E as [E|E]; [left; lia|auto].
    + apply Forall_app. split; [exact HR|]. constructor; [exact Rr|constructor].
    + destruct batch; discriminate.
    + left. apply in_app_iff. cbn. auto.
    + exact HB.
Qed.
Lemma target_batch_full draws torder tdist n : Permutation torder (seq 0 draws) -> forall batch new ds out d,
  in_range draws batch -> (forall v, new = Some v -> In v batch \/ (v = draws /\ incl (tl torder) batch)) ->
  target_batch draws torder tdist n batch new ds = Some (out, d) -> List.length out = (List.length batch + n)%nat \/ incl (tl torder) out.
Proof using.
  clear. intro TA. assert (TR : forall v, In v (tl torder) -> (v < draws)%nat).
  { intros v Hv. assert (X : In v torder) by (destruct torder; [destruct Hv|right; exact Hv]). apply (Permutation_in _ TA) in X. apply in_seq in X. lia. }
  assert (TD : ~ In draws (tl torder)) by (intro X; apply TR in X; lia).
  induction n as [|n IH]; intros batch new ds out d HR HN E; [cbn in E; injection E as <- <-; left; lia|].
  pose proof (target_batch_incl _ _ _ _ _ _ _ _ _ E) as INC. cbn in E.
  destruct (match new with None => _ | Some _ => _ end) as [r|] eqn:En; [|discriminate].
  destruct (Nat.eqb_spec r draws) as [->|Nr].
  - right. apply incl_tran with batch; [|exact INC]. destruct new as [v|].
    + destruct (HN v eq_refl) as [X|[_ X]]; [|exact X]. intros u Hu. apply mem_spec. eapply (near_loop_all draws (fun v => mem v batch)); [exact En| |exact TD|exact Hu].
      intros ->. unfold in_range in HR. rewrite Forall_forall in HR. specialize (HR _ X). lia.
    + destruct (tl torder) as [|v l] eqn:Et; [intros ? []|]. intros u Hu. apply mem_spec.
      assert (Nv : v <> draws) by (intros ->; apply TD; left; reflexivity).
      destruct Hu as [->|Hu].
      * destruct (mem u batch) eqn:Em; [reflexivity|]. destruct l; cbn in En; rewrite Em in En; congruence.
      * eapply (near_loop_all draws (fun v => mem v batch)); [exact En|exact Nv| |exact Hu]. intro Y. apply TD. right. exact Y.
  - assert (Rr : (r < draws)%nat).
    { assert (ND : forall bad rest new r, near_loop draws bad rest new = Some r -> r = new \/ In r rest \/ r = draws).
      { clear. intros bad rest. induction rest as [|x rest IH]; intros new r; cbn; destruct (bad new); [destruct (bad draws); [discriminate|]| | |]; intro H; try (injection H as <-; auto). destruct (IH _ _ H) as [->|[X|X]]; auto. }
      destruct new as [v|].
      - apply ND in En. destruct En as [->|[X|X]]; [|auto|congruence]. destruct (HN v eq_refl) as [X|[X _]]; [|congruence]. unfold in_range in HR. rewrite Forall_forall in HR. auto.
      - destruct (tl torder) as [|v l] eqn:Et; [congruence|]. apply ND in En. destruct En as [->|[X|X]]; [apply TR; left; reflexivity|apply TR; right; exact X|congruence]. }
    apply IH in E.
    + rewrite app_length in E. cbn in E. destruct E as [E|E]; [left; lia|auto].
    + apply Forall_app. split; [exact HR|]. constructor; [exact Rr|constructor].
    + intros v [= <-]. left. apply in_app_iff. cbn. auto.
Qed.

(* ---------------- the invariants ---------------- *)
Hypothesis W : sane w.
Notation inv := (inv (w_draws w) (w_lo w) (w_hi w) (w_b0 w) (w_b1 w)).
Definition contents_from (c : list (axis refs)) (seen : list nat) : Prop := forall a i, In a c -> title refs a = Some i -> In i seen.
Record good (target : bool) (c : screen) : Prop := {
  g_inv : inv target (c_history refs c) (c_sess refs c);
  g_titles : s_titles (c_sess refs c) = map (title refs) (c_axes refs c);
  g_mean : c_mean refs c = plot_pp_mean w refs (s_selected (c_sess refs c)) (c_refs refs c) (c_style refs c);
  g_fig : NoDup (c_fig refs c) /\ (forall n, In n (c_fig refs c) -> (n < List.length (c_axes refs c))%nat) }.
Record tidy (c : screen) : Prop := {
  t_own : c_own refs c = List.length (c_axes refs c);
  t_fig : c_fig refs c = seq 0 (List.length (c_axes refs c)) \/
          (c_fig refs c = [] /\ c_batch refs c = [] /\ forall i, (i < w_draws w)%nat -> In i (s_shown (c_sess refs c)));
  t_room : (List.length (c_batch refs c) <= List.length (c_fig refs c))%nat;
  t_cap : (9 <= List.length (c_axes refs c))%nat \/ (forall i, (i < w_draws w)%nat -> In i (s_shown (c_sess refs c))) \/
          (1 <= List.length (c_axes refs c) /\ w_draws w <= List.length (List.concat (c_history refs c)) + 1)%nat;
  t_panels : forall j i, nth_error (c_batch refs c) j = Some i -> exists a, panel c j = Some a /\ a_content refs a = Sample refs i (c_style refs c) (c_refs refs c) /\
     (c_sharex refs c = false -> a_xlim refs a = extent i (c_style refs c) (c_refs refs c));
  t_limits : c_sharex refs c = true -> c_fig refs c <> [] -> exists lim, common_range (c_style refs c) (c_refs refs c) (c_batch refs c) lim /\
     forall j a, panel c j = Some a -> a_xlim refs a = lim }.

Lemma inv_titles target batches s ts : inv target batches s -> (forall t, In (Some t) ts -> In t (List.concat batches)) ->
  inv target batches (mkSession (s_shown s) (s_selected s) (s_choices s) (s_distances s) ts (s_clicked s)).
Proof using. intros [] H. constructor; cbn; assumption. Qed.
Lemma titles_from target c : good target c -> contents_from (c_axes refs c) (List.concat (c_history refs c)).
Proof using. intros [] a i Ha Ht. apply (i_titles _ _ _ _ _ _ _ _ g_inv0). rewrite g_titles0. apply in_map_iff. eauto. Qed.
Lemma plotted_from axes fig batch r k share axes' seen : NoDup fig -> (forall n, In n fig -> (n < List.length axes)%nat) ->
  plot_pp_samples axes fig batch r k share = Ok axes' -> contents_from axes seen -> contents_from axes' (batch ++ seen).
Proof using.
  intros ND HL E CF a i Ha Ht. destruct (plotted _ _ _ _ _ _ _ ND HL E) as (_ & _ & C & _). apply In_nth_error in Ha. destruct Ha as (n & En).
  apply in_app_iff. destruct (C n a En) as [(x & Hx & X)|(b & Hb & X)]; unfold title in Ht; rewrite X in Ht.
  - injection Ht as <-. auto.
  - right. eapply CF; [eapply nth_error_In, Hb|exact Ht].
Qed.
Lemma square_room n : (n <= square n)%nat.
Proof using. clear. unfold square. destruct n as [|n]; [cbn; lia|]. pose proof (Nat.sqrt_up_spec (S n)) as H. cbn zeta in H. lia. Qed.
(** The panels after a drawing, in a figure made of all axes. *)
Lemma panels_drawn (c : screen) axes : NoDup (c_fig refs c) -> (forall n, In n (c_fig refs c) -> (n < List.length axes)%nat) ->
  plot_pp_samples axes (c_fig refs c) (c_batch refs c) (c_refs refs c) (c_style refs c) (c_sharex refs c) = Ok (c_axes refs c) ->
  (List.length (c_batch refs c) <= List.length (c_fig refs c))%nat ->
  (forall j i, nth_error (c_batch refs c) j = Some i -> exists a, panel c j = Some a /\ a_content refs a = Sample refs i (c_style refs c) (c_refs refs c) /\
     (c_sharex refs c = false -> a_xlim refs a = extent i (c_style refs c) (c_refs refs c))) /\
  (c_sharex refs c = true -> c_fig refs c <> [] -> exists lim, common_range (c_style refs c) (c_refs refs c) (c_batch refs c) lim /\
     forall j a, panel c j = Some a -> a_xlim refs a = lim).
Proof using.
  intros ND HL E LE. destruct (plotted _ _ _ _ _ _ _ ND HL E) as (_ & P & _ & Q). split.
  - intros j i Ej. assert (X : (j < List.length (c_fig refs c))%nat) by (apply Nat.lt_le_trans with (List.length (c_batch refs c)); [apply nth_error_Some; congruence|exact LE]).
    apply nth_error_Some in X. unfold panel. destruct (nth_error (c_fig refs c) j) as [n|] eqn:En; [|congruence]. apply (P j n i En Ej).
  - intros Hs HF. destruct (Q Hs LE HF) as (lim & CR & HX). exists lim. split; [exact CR|]. intros j a. unfold panel.
    destruct (nth_error (c_fig refs c) j) as [n|] eqn:En; [|discriminate]. intro Ea. apply (HX n a); [eapply nth_error_In, En|exact Ea].
Qed.
Lemma opening_ok target r c : opening target r = Some (Ok c) -> good target c /\ tidy c /\ c_style refs c = Pdf /\ c_sharex refs c = true /\ c_text refs c = write r /\ c_refs refs c = r.
Proof using W.
  destruct W as (H1 & H2 & H3 & H4). unfold ScreenModel.opening. destruct (initialize_subsamples _ _ _ _ _ _ _ _ _ _ target _) as [[[batch s]|e]|] eqn:E; try discriminate.
  destruct batch as [|b0 bt] eqn:Eb; [discriminate|]. rewrite <- Eb in *.
  set (n := square (List.length batch)). destruct (plot_pp_samples (repeat blank n) (seq 0 n) batch r Pdf true) as [axes|e] eqn:Ep; cbn [bind]; [|discriminate]. intros [= <-].
  assert (SI : start (w_draws w) (w_order w) (w_target_order w) (w_target_distance w) (w_lo w) (w_hi w) (w_b0 w) (w_b1 w) (w_below w) (w_pick w) (w_grid w) target =
     Some (Ok (batch, mkSession (s_shown s) (s_selected s) (s_choices s) (s_distances s) (retitle (repeat None (w_grid w (List.length batch))) batch) (s_clicked s)))) by (unfold start; rewrite E; reflexivity).
  apply (start_inv (w_draws w) (w_order w) (w_target_order w) (w_target_distance w) (w_lo w) (w_hi w) (w_b0 w) (w_b1 w) (w_below w) (w_pick w) (w_grid w) H1 H2 H3 H4) in SI.
  destruct SI as [I _].
  assert (NS : NoDup (seq 0 n)) by apply seq_NoDup.
  assert (LS : forall m, In m (seq 0 n) -> (m < List.length (repeat blank n))%nat) by (intros m Hm; rewrite repeat_length; apply in_seq in Hm; lia).
  pose proof (plotted _ _ _ _ _ _ _ NS LS Ep) as (PL & _). rewrite repeat_length in PL.
  pose proof (square_room (List.length batch)) as SQ. fold n in SQ.
  split; [|split; [|cbn; auto]].
  - constructor; cbn.
    + apply (inv_titles target [batch]) with (ts := map (title refs) axes) in I; [exact I|]. intros t Ht. apply in_map_iff in Ht. destruct Ht as (a & Et & Ha). cbn [List.concat].
      refine (plotted_from _ _ _ _ _ _ _ [] NS LS Ep _ a t Ha Et). intros b i Hb Hi. apply repeat_spec in Hb. subst b. discriminate Hi.
    + reflexivity.
    + reflexivity.
    + split; [exact NS|]. rewrite PL. intros m Hm. apply in_seq in Hm. lia.
  - assert (PD := panels_drawn (mkScreen refs (titled refs s axes) [batch] axes n (seq 0 n) (plot_pp_mean w refs (s_selected s) r Pdf) Pdf true (write r) r) (repeat blank n) NS LS Ep).
    cbn in PD. rewrite seq_length in PD. destruct (PD SQ) as [PA PB]. constructor; cbn; rewrite ?PL; auto.
    + rewrite seq_length. exact SQ.
    + (* the first batch fills the figure, or leaves next to nothing *)
      unfold initialize_subsamples in E. cbn [s_shown s_distances] in E. set (sh := update [] _) in E.
      destruct (Nat.eqb (List.length sh) (w_draws w)); [injection E as X _; subst batch; discriminate X|].
      destruct target.
      * destruct (target_batch _ _ _ 9 [] None _) as [[bb dd]|] eqn:Et; [|discriminate]. injection E as -> <-.
        apply target_batch_full in Et; [|exact H2|constructor|discriminate]. cbn [List.length] in Et. destruct Et as [Et|Et]; [left; lia|].
        right. right. rewrite app_nil_r. split; [rewrite Eb in SQ; cbn in SQ; lia|].
        assert (NT : NoDup (tl (w_target_order w))).
        { assert (X : NoDup (w_target_order w)) by (eapply Permutation_NoDup; [apply Permutation_sym, H2|apply seq_NoDup]). destruct (w_target_order w); [constructor|inversion X; assumption]. }
        pose proof (NoDup_incl_length NT Et) as L. pose proof (Permutation_length H2) as LL. rewrite seq_length in LL. destruct (w_target_order w); cbn in *; lia.
      * set (new := w_pick w _) in E. destruct (far_batch _ _ _ 8 sh [new] new) as [[bb|e]|] eqn:Ef; try discriminate. injection E as -> <-.
        destruct (in_dec Nat.eq_dec new (filter (fun i => negb (mem i sh)) (seq 0 (w_draws w)))) as [P|P].
        -- apply filter_In in P. destruct P as [P1 P2]. apply in_seq in P1.
           apply far_batch_full in Ef; [|exact H1|constructor; [lia|constructor]|discriminate|left; left; reflexivity|exact H4]. cbn [List.length] in Ef. destruct Ef as [Ef|Ef]; [left; lia|].
           right. left. intros i Hi. apply update_in. destruct (in_dec Nat.eq_dec i sh) as [X|X]; [auto|right; apply Ef, unseen_in; auto].
        -- right. left. intros i Hi. apply update_in. left. destruct (in_dec Nat.eq_dec i sh) as [X|X]; [exact X|]. exfalso. apply P, H3. intro Y.
           assert (Z : In i (unseen (w_draws w) sh)) by (apply unseen_in; auto). unfold unseen in Z. rewrite Y in Z. exact Z.
Qed.
Definition fair_acts (l : list act) : Prop := Forall (fun a => match a with More sh => fair sh | _ => True end) l.
Lemma redraw_ok target c k share t c' : good target c -> redraw w refs nothing literal extent c k share t = Ok c' ->
  good target c' /\ (tidy c -> tidy c') /\ c_style refs c' = k /\ c_sharex refs c' = share /\ c_text refs c' = t /\
  c_refs refs c' = (match literal t with Some r => r | None => nothing end) /\ c_sess refs c' = titled refs (c_sess refs c) (c_axes refs c') /\ c_history refs c' = c_history refs c.
Proof using W.
  intro G. pose proof (titles_from _ _ G) as TF. destruct G as [GI GT GM [GN GL]]. unfold redraw. set (r := match literal t with Some r => r | None => nothing end).
  destruct (plot_pp_samples (c_axes refs c) (c_fig refs c) (c_batch refs c) r k share) as [axes|e] eqn:E; cbn [bind]; [|discriminate]. intros [= <-].
  pose proof (plotted _ _ _ _ _ _ _ GN GL E) as (PL & _).
  split; [|split; [|cbn; auto 10]].
  - constructor; cbn [c_sess c_history c_axes c_own c_fig c_mean c_style c_sharex c_text c_refs].
    + apply inv_titles; [exact GI|]. intros u Hu. apply in_map_iff in Hu. destruct Hu as (a & Et & Ha).
      pose proof (plotted_from _ _ _ _ _ _ _ _ GN GL E TF a u Ha Et) as X. apply in_app_iff in X. destruct X as [X|X]; [|exact X].
      unfold c_batch in X. destruct (c_history refs c) as [|h hs]; [destruct X|]. cbn. apply in_app_iff. auto.
    + reflexivity.
    + reflexivity.
    + split; [exact GN|]. rewrite PL. exact GL.
  - intros [TO TG TR TC TP TL].
    set (c1 := mkScreen refs _ _ _ _ _ _ _ _ _ _).
    destruct (panels_drawn c1 (c_axes refs c) GN GL E TR) as [PA PB].
    constructor; cbn [c1 c_sess c_history c_axes c_own c_fig c_mean c_style c_sharex c_text c_refs titled s_shown]; rewrite ?PL; assumption.
Qed.
Lemma shown_grows target target' batches batches' s s' : inv target batches s -> inv target' (batches' ++ batches) s' ->
  (forall i, In i (s_selected s) -> In i (s_selected s')) -> forall i, In i (s_shown s) -> In i (s_shown s').
Proof using.
  intros I I' HS i Hi. assert (R : (i < w_draws w)%nat). { pose proof (i_shown_range _ _ _ _ _ _ _ _ I) as R. unfold in_range in R. rewrite Forall_forall in R. auto. }
  destruct (i_seen _ _ _ _ _ _ _ _ I i Hi) as [X|[X|X]].
  - apply (i_displayed_shown _ _ _ _ _ _ _ _ I'). unfold displayed. rewrite concat_app. apply in_app_iff. auto.
  - apply (i_outside _ _ _ _ _ _ _ _ I'); assumption.
  - apply (i_sel_shown _ _ _ _ _ _ _ _ I'). auto.
Qed.
Lemma carry_ok target c sh c' : good target c -> fair sh -> carry w refs extent sh c = Some (Ok c') ->
  good target c' /\ (tidy c -> tidy c') /\ c_style refs c' = c_style refs c /\ c_sharex refs c' = c_sharex refs c /\ c_text refs c' = c_text refs c /\ c_refs refs c' = c_refs refs c /\
  (forall t, clicked_titles (c_sess refs c) t -> In t (s_selected (c_sess refs c'))) /\ tl (c_history refs c') = c_history refs c /\ (c_history refs c' <> []).
Proof using All.
  intros G HS. pose proof (titles_from _ _ G) as TF. destruct G as [GI GT GM [GN GL]]. destruct W as (H1 & H2 & H3 & H4). unfold carry, carry_of.
  destruct (carry_on _ _ _ _ _ _ _ _ _ _ _ _ sh (c_sess refs c)) as [[[batch s]|e]|] eqn:E; try discriminate.
  pose proof (carry_on_step _ _ _ _ _ _ _ _ _ _ _ _ H1 H2 H3 H4 target (c_history refs c) (c_sess refs c) sh batch s GI HS E) as (I' & S1 & S2 & S3 & S4 & S5).
  set (ax0 := match s_clicked (c_sess refs c) with [] => _ | _ => _ end).
  assert (F0 : contents_from ax0 (List.concat (c_history refs c))).
  { unfold ax0. destruct (s_clicked (c_sess refs c)); [exact TF|]. intros a i Ha Ht. apply in_app_iff in Ha. destruct Ha as [Ha|Ha].
    - apply repeat_spec in Ha. subst a. discriminate.
    - apply (TF a i); [|exact Ht]. rewrite <- (firstn_skipn (c_own refs c) (c_axes refs c)). apply in_app_iff. auto. }
  assert (L0 : c_own refs c = List.length (c_axes refs c) -> List.length ax0 = List.length (c_axes refs c)).
  { intro O. unfold ax0. destruct (s_clicked (c_sess refs c)); [reflexivity|]. rewrite app_length, repeat_length, skipn_length. lia. }
  assert (G0 : forall n, In n (c_fig refs c) -> (n < List.length ax0)%nat).
  { intros n Hn. specialize (GL n Hn). unfold ax0. destruct (s_clicked (c_sess refs c)); [exact GL|]. rewrite app_length, repeat_length, skipn_length. lia. }
  assert (SH : forall i, In i (s_shown (c_sess refs c)) -> In i (s_shown s)).
  { apply (shown_grows target target (c_history refs c) [batch]); assumption. }
  assert (BS : forall i, In i batch -> ~ In i (s_shown (c_sess refs c))).
  { intros i Hi X. destruct (S4 i Hi) as [N O]. destruct (i_seen _ _ _ _ _ _ _ _ GI i X) as [Y|[Y|Y]]; [|congruence|apply N, S1, Y].
    pose proof (i_displayed_nodup _ _ _ _ _ _ _ _ I') as D. unfold displayed in D, Y. cbn [List.concat] in D. apply nodup_app in D. destruct D as (_ & _ & D). eapply D; eassumption. }
  assert (CAP : tidy c -> forall m : nat, m = List.length (c_axes refs c) -> (9 <= m)%nat \/ (forall i, (i < w_draws w)%nat -> In i (s_shown s)) \/ (1 <= m /\ w_draws w <= List.length (List.concat (batch :: c_history refs c)) + 1)%nat).
  { intros [TO TG TR TC TP TL] m ->. destruct TC as [C|[C|[C1 C2]]]; [auto|right; left; auto|right; right; split; [exact C1|]]. cbn [List.concat]. rewrite app_length. lia. }
  destruct batch as [|b bt].
  - intros [= <-]. split; [|split; [|cbn; intuition congruence]].
    + constructor; cbn [c_sess c_history c_axes c_own c_fig c_mean c_style c_sharex c_text c_refs].
      * apply inv_titles; [exact I'|]. intros u Hu. apply in_map_iff in Hu. destruct Hu as (a & Et & Ha). cbn. eapply F0; eassumption.
      * reflexivity.
      * reflexivity.
      * split; [constructor|intros n []].
    + intro T. specialize (CAP T). destruct T as [TO TG TR TC TP TL]. specialize (L0 TO). constructor; cbn [c_batch hd c_sess c_history c_axes c_own c_fig c_mean c_style c_sharex c_text c_refs titled s_shown].
      * congruence.
      * right. split; [reflexivity|]. split; [reflexivity|]. apply S5. reflexivity.
      * cbn. lia.
      * apply CAP, L0.
      * intros [|j] i X; discriminate X.
      * intros _ X. destruct X. reflexivity.
  - set (batch := b :: bt) in *. destruct (plot_pp_samples ax0 (c_fig refs c) batch (c_refs refs c) (c_style refs c) (c_sharex refs c)) as [axes|e] eqn:Ep; cbn [bind]; [|discriminate].
    intros [= <-]. set (c1 := mkScreen refs _ _ _ _ _ _ _ _ _ _).
    pose proof (plotted _ _ _ _ _ _ _ GN G0 Ep) as (PL & _).
    split; [|split; [|cbn; intuition congruence]].
    + constructor; cbn [c1 c_sess c_history c_axes c_own c_fig c_mean c_style c_sharex c_text c_refs].
      * apply inv_titles; [exact I'|]. intros u Hu. apply in_map_iff in Hu. destruct Hu as (a & Et & Ha). cbn [List.concat]. eapply plotted_from; eassumption.
      * reflexivity.
      * reflexivity.
      * split; [exact GN|]. rewrite PL. exact G0.
    + intro T. specialize (CAP T). destruct T as [TO TG TR TC TP TL]. specialize (L0 TO).
      assert (FULL : c_fig refs c = seq 0 (List.length (c_axes refs c))).
      { destruct TG as [TG|(TG & _ & TB)]; [exact TG|]. exfalso. apply (BS b); [left; reflexivity|]. apply TB.
        pose proof (i_shown_range _ _ _ _ _ _ _ _ I') as R. unfold in_range in R. rewrite Forall_forall in R. apply R.
        apply (i_displayed_shown _ _ _ _ _ _ _ _ I'). left. reflexivity. }
      assert (ROOM : (List.length batch <= List.length (c_fig refs c))%nat).
      { rewrite FULL, seq_length. destruct TC as [C|[C|[C1 C2]]].
        - pose proof (i_size _ _ _ _ _ _ _ _ I') as Z. inversion Z; subst. lia.
        - exfalso. apply (BS b); [left; reflexivity|]. apply C. pose proof (i_shown_range _ _ _ _ _ _ _ _ I') as R. unfold in_range in R. rewrite Forall_forall in R. apply R.
          apply (i_displayed_shown _ _ _ _ _ _ _ _ I'). left. reflexivity.
        - assert (X : (List.length (List.concat (batch :: c_history refs c)) <= List.length (seq 0 (w_draws w)))%nat).
          { apply NoDup_incl_length; [apply (i_displayed_nodup _ _ _ _ _ _ _ _ I')|]. intros i Hi. apply in_seq.
            pose proof (i_shown_range _ _ _ _ _ _ _ _ I') as R. unfold in_range in R. rewrite Forall_forall in R. specialize (R i (i_displayed_shown _ _ _ _ _ _ _ _ I' i Hi)). lia. }
          rewrite seq_length in X. cbn [List.concat] in X. rewrite app_length in X. lia. }
      destruct (panels_drawn c1 ax0 GN G0 Ep ROOM) as [PA PB].
      constructor; cbn [c1 c_batch hd c_sess c_history c_axes c_own c_fig c_mean c_style c_sharex c_text c_refs titled s_shown].
      * congruence.
      * left. rewrite PL, L0. exact FULL.
      * exact ROOM.
      * apply CAP. congruence.
      * exact PA.
      * exact PB.
Qed.
Lemma click_ok target c n : good target c -> let c' := mkScreen refs (click n (c_sess refs c)) (c_history refs c) (c_axes refs c) (c_own refs c) (c_fig refs c) (c_mean refs c) (c_style refs c) (c_sharex refs c) (c_text refs c) (c_refs refs c) in
  good target c' /\ (tidy c -> tidy c').
Proof using.
  intros [GI GT GM GF] c'.
  assert (X : s_titles (click n (c_sess refs c)) = s_titles (c_sess refs c) /\ s_selected (click n (c_sess refs c)) = s_selected (c_sess refs c) /\ s_shown (click n (c_sess refs c)) = s_shown (c_sess refs c)) by (unfold click; destruct (Nat.ltb _ _); auto).
  destruct X as (X1 & X2 & X3). split.
  - constructor; cbn; rewrite ?X1, ?X2; try assumption. apply click_inv, GI.
  - intros [TO TG TR TC TP TL]. constructor; cbn; rewrite ?X3; assumption.
Qed.
Lemma return_ok target c : good target c -> good target (return_prior refs c).
Proof using.
  intro G. pose proof (titles_from _ _ G) as TF. destruct G as [GI GT GM [GN GL]]. unfold return_prior. destruct (Nat.ltb 4 _); [|constructor; auto].
  constructor; cbn [c_sess c_history c_axes c_own c_fig c_mean c_style c_sharex c_text c_refs].
  - apply inv_titles; [exact GI|]. intros u Hu. apply in_map_iff in Hu. destruct Hu as (a & Et & Ha). apply in_app_iff in Ha. destruct Ha as [Ha|[<-|[]]]; [eapply TF; eassumption|discriminate Et].
  - reflexivity.
  - exact GM.
  - split; [constructor; [intros []|constructor]|]. intros n [<-|[]]. rewrite app_length. cbn. lia.
Qed.
Lemma step_ok target c a c' : good target c -> (match a with More sh => fair sh | _ => True end) -> step c a = Some (Ok c') -> good target c' /\ (a <> Return -> tidy c -> tidy c').
Proof using All.
  intros G HF. destruct a as [n|sh|k|b|t|]; cbn [ScreenModel.step].
  - intros [= <-]. destruct (mem n (c_fig refs c)); [|auto]. destruct (click_ok target c n G) as [A B]. split; [exact A|auto].
  - intro E. destruct (carry_ok _ _ _ _ G HF E) as (A & B & _). auto.
  - intros [= E]. destruct (redraw_ok _ _ _ _ _ _ G E) as (A & B & _). auto.
  - intros [= E]. destruct (redraw_ok _ _ _ _ _ _ G E) as (A & B & _). auto.
  - intros [= E]. destruct (redraw_ok _ _ _ _ _ _ G E) as (A & B & _). auto.
  - intros [= <-]. split; [apply return_ok, G|congruence].
Qed.
Lemma steps_ok target l : forall c c', good target c -> fair_acts l -> steps c l = Some (Ok c') -> good target c' /\ (~ In Return l -> tidy c -> tidy c').
Proof using All.
  induction l as [|a l IH]; intros c c' G HF; cbn [ScreenModel.steps]; [intros [= <-]; auto|]. inversion HF as [|x y H1 H2]; subst.
  destruct (step c a) as [[c1|e]|] eqn:E; try discriminate. destruct (step_ok _ _ _ _ G H1 E) as [G1 T1]. intro E2. destruct (IH _ _ G1 H2 E2) as [G2 T2].
  split; [exact G2|]. intros N T. apply T2; [intro X; apply N; right; exact X|]. apply T1; [intros ->; apply N; left; reflexivity|exact T].
Qed.
Lemma show_ok target r l c : fair_acts l -> show target r l = Some (Ok c) -> good target c /\ (~ In Return l -> tidy c).
Proof using All.
  intros HF. unfold ScreenModel.show. destruct (opening target r) as [[c0|e]|] eqn:E; try discriminate. destruct (opening_ok _ _ _ E) as (G & T & _).
  intro E2. destruct (steps_ok _ _ _ _ G HF E2) as [A B]. split; [exact A|]. intro N. apply B; assumption.
Qed.
End Screen.

(* ---------------- C82 ---------------- *)
(** What the user last chose: kind of plot, common range, text of the references. *)
Definition last_style (l : list act) : style := fold_left (fun k a => match a with Style k => k | _ => k end) l Pdf.
Definition last_share (l : list act) : bool := fold_left (fun b a => match a with Share b => b | _ => b end) l true.
Definition last_text (t : text) (l : list act) : text := fold_left (fun t a => match a with Write t => t | _ => t end) l t.
Definition changed (a : act) : Prop := match a with Style _ | Share _ | Write _ => True | _ => False end.

(** Whatever the user clicks, asks and chooses, up to the request for the new prior: there is a panel for each sample of the
    current batch, so that no sample is counted as shown without being drawn, and the j-th panel shows the j-th of them, in
    the chosen kind and with the current references. *)
Theorem C82_panels : forall w refs nothing literal write extent target references l c, sane w -> fair_acts l -> ~ In Return l ->
  show w refs nothing literal write extent target references l = Some (Ok c) ->
  (List.length (c_batch refs c) <= List.length (c_fig refs c))%nat /\
  forall j i, nth_error (c_batch refs c) j = Some i -> exists a, panel refs c j = Some a /\ a_content refs a = Sample refs i (c_style refs c) (c_refs refs c).
Proof.
  intros w refs nothing literal write extent target references l c W HF N E. destruct (show_ok w refs nothing literal write extent W target references l c HF E) as [_ T].
  destruct (T N) as [TO TG TR TC TP TL]. split; [exact TR|]. intros j i Ej. destruct (TP j i Ej) as (a & A & B & _). eauto.
Qed.
(** With the common range every panel of the figure has the same limits: they hold the range of each drawn sample, and are the
    least and greatest of those rounded outwards to whole numbers. Without it each panel has its own. *)
Theorem C82_ranges : forall w refs nothing literal write extent target references l c, sane w -> fair_acts l -> ~ In Return l ->
  show w refs nothing literal write extent target references l = Some (Ok c) -> c_batch refs c <> [] ->
  if c_sharex refs c then
    exists low high, (forall j a, panel refs c j = Some a -> a_xlim refs a = (low, high)) /\
      (forall i, In i (c_batch refs c) -> low <= fst (extent i (c_style refs c) (c_refs refs c)) /\ snd (extent i (c_style refs c) (c_refs refs c)) <= high) /\
      (exists i, In i (c_batch refs c) /\ fst (extent i (c_style refs c) (c_refs refs c)) < low + 1 /\ exists z, low = IZR z) /\
      (exists i, In i (c_batch refs c) /\ high - 1 < snd (extent i (c_style refs c) (c_refs refs c)) /\ exists z, high = IZR z)
  else forall j i, nth_error (c_batch refs c) j = Some i -> exists a, panel refs c j = Some a /\ a_xlim refs a = extent i (c_style refs c) (c_refs refs c).
Proof.
  intros w refs nothing literal write extent target references l c W HF N E NE. destruct (show_ok w refs nothing literal write extent W target references l c HF E) as [_ T].
  destruct (T N) as [TO TG TR TC TP TL]. destruct (c_sharex refs c).
  - assert (FE : c_fig refs c <> []) by (intro X; rewrite X in TR; destruct (c_batch refs c); [congruence|cbn in TR; lia]).
    destruct (TL eq_refl FE) as ((low & high) & (C1 & (i1 & I1 & L1) & (i2 & I2 & L2)) & P). cbn [fst snd] in *. exists low, high. split; [exact P|]. split; [exact C1|]. split.
    + exists i1. split; [exact I1|]. rewrite L1. split; [apply floor_spec|]. eexists. reflexivity.
    + exists i2. split; [exact I2|]. rewrite L2. split; [apply ceil_spec|]. unfold ceil, floor. eexists (- _)%Z. rewrite opp_IZR. reflexivity.
  - intros j i Ej. destruct (TP j i Ej) as (a & A & _ & B). exists a. split; [exact A|apply B; reflexivity].
Qed.
(** What is drawn follows the last choices. The references are those given until some choice is changed, and from then on what
    the text box says, nothing if it cannot be read. *)
Theorem C82_choices : forall w refs nothing literal write extent target references l c, sane w -> fair_acts l ->
  show w refs nothing literal write extent target references l = Some (Ok c) ->
  c_style refs c = last_style l /\ c_sharex refs c = last_share l /\ c_text refs c = last_text (write references) l /\
  (Forall (fun a => ~ changed a) l -> c_refs refs c = references) /\
  (Exists changed l -> c_refs refs c = match literal (c_text refs c) with Some r => r | None => nothing end).
Proof.
  intros w refs nothing literal write extent target references l c W HF. unfold show. destruct (opening w refs write extent target references) as [[c0|e]|] eqn:E; try discriminate.
  destruct (opening_ok w refs write extent W _ _ _ E) as (G & _ & O1 & O2 & O3 & O4). unfold last_style, last_share, last_text. rewrite <- O1, <- O2, <- O3, <- O4. clear E O1 O2 O3 O4.
  revert c0 G. induction l as [|a l IH]; intros c0 G; cbn [steps].
  - intros [= <-]. cbn. split; [reflexivity|]. split; [reflexivity|]. split; [reflexivity|]. split; [reflexivity|]. intro X. inversion X.
  - inversion HF as [|x y H1 H2]; subst. destruct (step w refs nothing literal extent c0 a) as [[c1|e]|] eqn:Es; try discriminate. intro E.
    assert (G1 : good w refs target c1) by (apply (step_ok w refs nothing literal write extent W target c0 a c1 G H1 Es)).
    destruct (IH H2 c1 G1 E) as (A1 & A2 & A3 & A4 & A5). rewrite A1, A2, A3. cbn [fold_left].
    assert (S : c_style refs c1 = (match a with Style k => k | _ => c_style refs c0 end) /\ c_sharex refs c1 = (match a with Share b => b | _ => c_sharex refs c0 end) /\
      c_text refs c1 = (match a with Write t => t | _ => c_text refs c0 end) /\
      (~ changed a -> c_refs refs c1 = c_refs refs c0) /\ (changed a -> c_refs refs c1 = match literal (c_text refs c1) with Some r => r | None => nothing end)).
    { destruct a as [n|sh|k|b|t|]; cbn [step] in Es.
      - injection Es as <-. destruct (mem n (c_fig refs c0)); cbn; tauto.
      - destruct (carry_ok w refs nothing literal write extent W target c0 sh c1 G H1 Es) as (_ & _ & B1 & B2 & B3 & B4 & _). rewrite B1, B2, B3, B4. cbn. tauto.
      - injection Es as Es. destruct (redraw_ok w refs nothing literal extent W target c0 _ _ _ c1 G Es) as (_ & _ & B1 & B2 & B3 & B4 & _). rewrite B1, B2, B3, B4. cbn. tauto.
      - injection Es as Es. destruct (redraw_ok w refs nothing literal extent W target c0 _ _ _ c1 G Es) as (_ & _ & B1 & B2 & B3 & B4 & _). rewrite B1, B2, B3, B4. cbn. tauto.
      - injection Es as Es. destruct (redraw_ok w refs nothing literal extent W target c0 _ _ _ c1 G Es) as (_ & _ & B1 & B2 & B3 & B4 & _). rewrite B1, B2, B3, B4. cbn. tauto.
      - injection Es as <-. unfold return_prior. destruct (Nat.ltb 4 _); cbn; tauto. }
    destruct S as (S1 & S2 & S3 & S4 & S5). rewrite S1, S2, S3. split; [reflexivity|]. split; [reflexivity|]. split; [reflexivity|]. split.
    + intro X. inversion X; subst. rewrite A4 by assumption. apply S4. assumption.
    + intro X.
      assert (D : {Exists changed l} + {~ Exists changed l}) by (apply Exists_dec; intros []; cbn; tauto).
      destruct D as [D|D]; [rewrite (A5 D), A3, S3; reflexivity|]. inversion X as [x y Y|]; subst; [|contradiction].
      assert (F : Forall (fun a => ~ changed a) l) by (apply Forall_Exists_neg; exact D).
      rewrite (A4 F), (S5 Y). f_equal. f_equal. rewrite <- S3. clear - F. generalize (c_text refs c1). induction F as [|a l H F IH]; intro t; cbn; [reflexivity|]. rewrite <- IH. destruct a; cbn in *; tauto.
Qed.
(** The panel of the accepted samples: drawn in the chosen kind with the current references, it puts together all samples when
    none is accepted, and exactly the accepted ones otherwise, unless the only one is number zero. *)
Theorem C82_accepted_panel : forall w refs nothing literal write extent target references l c, sane w -> fair_acts l ->
  show w refs nothing literal write extent target references l = Some (Ok c) ->
  m_style refs (c_mean refs c) = c_style refs c /\ m_refs refs (c_mean refs c) = c_refs refs c /\
  (s_selected (c_sess refs c) = [] -> m_pool refs (c_mean refs c) = seq 0 (w_draws w)) /\
  ((exists i, In i (s_selected (c_sess refs c)) /\ i <> 0%nat) -> m_pool refs (c_mean refs c) = s_selected (c_sess refs c)).
Proof.
  intros w refs nothing literal write extent target references l c W HF E. destruct (show_ok w refs nothing literal write extent W target references l c HF E) as [G _].
  rewrite (g_mean _ _ _ _ G). unfold plot_pp_mean. cbn. split; [reflexivity|]. split; [reflexivity|]. split; [intros ->; reflexivity|].
  intros (i & Hi & Ni). assert (X : existsb (fun i => negb (Nat.eqb i 0)) (s_selected (c_sess refs c)) = true).
  { apply existsb_exists. exists i. split; [exact Hi|]. destruct (Nat.eqb_spec i 0); [contradiction|reflexivity]. }
  rewrite X. reflexivity.
Qed.
(** What is accepted is what was seen: a clicked panel that shows a sample makes exactly that sample accepted. *)
Theorem C82_clicked : forall w refs nothing literal write extent target references l c sh c' j n a i k r, sane w -> fair_acts l -> fair sh ->
  show w refs nothing literal write extent target references l = Some (Ok c) -> step w refs nothing literal extent c (More sh) = Some (Ok c') ->
  nth_error (c_fig refs c) j = Some n -> In n (s_clicked (c_sess refs c)) -> panel refs c j = Some a -> a_content refs a = Sample refs i k r ->
  In i (s_selected (c_sess refs c')).
Proof.
  intros w refs nothing literal write extent target references l c sh c' j n a i k r W HF HS E Es En Hc Hp Ha.
  destruct (show_ok w refs nothing literal write extent W target references l c HF E) as [G _].
  destruct (carry_ok w refs nothing literal write extent W target c sh c' G HS Es) as (_ & _ & _ & _ & _ & _ & X & _). apply X. exists n. split; [exact Hc|].
  rewrite (g_titles _ _ _ _ G). unfold panel in Hp. rewrite En in Hp. apply (nth_error_nth _ _ None). erewrite map_nth_error; [|exact Hp]. unfold title. rewrite Ha. reflexivity.
Qed.
(** With at most four accepted samples the request for the new prior changes nothing. *)
Theorem C82_return_few : forall refs (c : screen refs), (List.length (s_selected (c_sess refs c)) <= 4)%nat -> return_prior refs c = c.
Proof. intros refs c H. unfold return_prior. destruct (Nat.ltb_spec 4 (List.length (s_selected (c_sess refs c)))); [lia|reflexivity]. Qed.

(* ---------------- a concrete session ---------------- *)
Definition plain := show (line_world 40 (Ok 40%nat) NInf PInf) (list R) [] (fun _ => None) (fun _ => []) (fun i _ _ => (INR i, INR i + 1)).
(** Sizes of the current batch, of the accepted set and of the figure. *)
Definition sizes {refs} (o : option (res (screen refs))) : option (nat * nat * nat) :=
  match o with
  | Some (Ok c) => Some (List.length (c_batch refs c), List.length (s_selected (c_sess refs c)), List.length (c_fig refs c))
  | _ => None
  end.
Lemma sizes_of {refs} (o : option (res (screen refs))) a b d : sizes o = Some (a, b, d) ->
  exists c, o = Some (Ok c) /\ List.length (c_batch refs c) = a /\ List.length (s_selected (c_sess refs c)) = b /\ List.length (c_fig refs c) = d.
Proof. destruct o as [[c|e]|]; cbn; try discriminate. intros [= <- <- <-]. exists c. auto. Qed.
Example C82_applies : exists c, plain false [] [Touch 0; Touch 1; Touch 2; More (fun l => l); Style Hist; Share false; More (fun l => l)] = Some (Ok c) /\
  List.length (c_batch _ c) = 9%nat /\ List.length (s_selected (c_sess _ c)) = 4%nat /\ List.length (c_fig _ c) = 9%nat.
Proof. apply sizes_of. lazy. reflexivity. Qed.
(** After the new prior has been shown, the figure has the single axis of its text. A further request draws the first sample of
    the new batch there and counts the others as shown without ever drawing them. *)
Theorem C82_return_refuted : forall w refs nothing literal write extent target references l c sh c', sane w -> fair_acts l -> fair sh ->
  show w refs nothing literal write extent target references l = Some (Ok c) -> (4 < List.length (s_selected (c_sess refs c)))%nat ->
  step w refs nothing literal extent (return_prior refs c) (More sh) = Some (Ok c') -> c_batch refs c' <> [] ->
  List.length (c_fig refs c') = 1%nat /\ incl (c_batch refs c') (s_shown (c_sess refs c')) /\ (forall j, (1 <= j)%nat -> panel refs c' j = None).
Proof.
  intros w refs nothing literal write extent target references l c sh c' W HF HS E H4 Es NB.
  destruct (show_ok w refs nothing literal write extent W target references l c HF E) as [G _]. pose proof (return_ok w refs target c G) as G1.
  destruct (carry_ok w refs nothing literal write extent W target _ sh c' G1 HS Es) as (G2 & _).
  assert (F : c_fig refs c' = c_fig refs (return_prior refs c)).
  { revert Es NB. cbn [step]. unfold carry. destruct (carry_of w sh (c_sess refs (return_prior refs c))) as [[[[|b bt] s]|e]|]; try discriminate.
    - intros [= <-] NB. cbn in NB. congruence.
    - set (ax := match s_clicked (c_sess refs (return_prior refs c)) with [] => _ | _ => _ end).
      destruct (plot_pp_samples refs extent ax _ (b :: bt) _ _ _); cbn [bind]; [|discriminate]. intros [= <-] _. reflexivity. }
  assert (F1 : c_fig refs c' = [List.length (c_axes refs c)]) by (rewrite F; unfold return_prior; destruct (Nat.ltb_spec 4 (List.length (s_selected (c_sess refs c)))); [reflexivity|lia]).
  split; [rewrite F1; reflexivity|]. split.
  - intros i Hi. apply (i_displayed_shown _ _ _ _ _ _ _ _ (g_inv _ _ _ _ G2)). unfold c_batch in Hi. unfold displayed. destruct (c_history refs c'); [destruct Hi|]. cbn. apply in_app_iff. auto.
  - intros [|j] Hj; [lia|]. unfold panel. rewrite F1. destruct j; reflexivity.
Qed.
Example C82_return_happens : exists c, plain false [] [Touch 0; Touch 1; Touch 2; Touch 3; Touch 4; More (fun l => l); Return; More (fun l => l)] = Some (Ok c) /\
  List.length (c_batch _ c) = 9%nat /\ List.length (s_selected (c_sess _ c)) = 6%nat /\ List.length (c_fig _ c) = 1%nat.
Proof. apply sizes_of. lazy. reflexivity. Qed.
(** References that do not survive str and literal_eval, such as an array, vanish from all panels with the first change of any
    other choice. *)
Theorem C82_references_refuted : forall w refs nothing literal write extent target references k c, sane w ->
  literal (write references) = None ->
  show w refs nothing literal write extent target references [Style k] = Some (Ok c) ->
  c_refs refs c = nothing /\ m_refs refs (c_mean refs c) = nothing /\
  forall j i, nth_error (c_batch refs c) j = Some i -> exists a, panel refs c j = Some a /\ a_content refs a = Sample refs i k nothing.
Proof.
  intros w refs nothing literal write extent target references k c W EL E.
  assert (HF : fair_acts [Style k]) by (constructor; [exact I|constructor]).
  destruct (C82_choices w refs nothing literal write extent target references _ c W HF E) as (A1 & _ & A3 & _ & A5). cbn in A1, A3.
  assert (R : c_refs refs c = nothing) by (rewrite A5 by (constructor; exact I); rewrite A3, EL; reflexivity).
  destruct (C82_accepted_panel w refs nothing literal write extent target references _ c W HF E) as (_ & M & _).
  destruct (C82_panels w refs nothing literal write extent target references _ c W HF) as [_ P]; [intros [X|[]]; discriminate X|exact E|].
  split; [exact R|]. split; [congruence|]. intros j i Ej. destruct (P j i Ej) as (a & B & C). exists a. split; [exact B|]. rewrite C, A1, R. reflexivity.
Qed.
Example C82_references_happens : exists c, plain false [1; 2] [Style Hist] = Some (Ok c) /\
  List.length (c_batch _ c) = 9%nat /\ List.length (s_selected (c_sess _ c)) = 0%nat /\ List.length (c_fig _ c) = 9%nat.
Proof. apply sizes_of. lazy. reflexivity. Qed.
(** When no sample is within the boundaries there is no batch, and drawing it raises ValueError. *)
Theorem C82_nothing_within_refuted : forall w refs nothing literal write extent target references l,
  (forall i, (i < w_draws w)%nat -> ~ within w i) -> show w refs nothing literal write extent target references l = Some (Err ValueError).
Proof.
  intros w refs nothing literal write extent target references l H. unfold show, opening, initialize_subsamples. cbn [s_shown].
  assert (E : filter (outside (w_lo w) (w_hi w) (w_b0 w) (w_b1 w)) (seq 0 (w_draws w)) = seq 0 (w_draws w)).
  { assert (X : forall l, (forall i, In i l -> (i < w_draws w)%nat) -> filter (outside (w_lo w) (w_hi w) (w_b0 w) (w_b1 w)) l = l).
    { intro l0. induction l0 as [|a l0 IH]; intro HL; [reflexivity|]. cbn. destruct (outside _ _ _ _ a) eqn:Eo.
      - f_equal. apply IH. intros i Hi. apply HL. right. exact Hi.
      - exfalso. apply (H a); [apply HL; left; reflexivity|apply outside_within, Eo]. }
    apply X. intros i Hi. apply in_seq in Hi. lia. }
  rewrite E. assert (L : List.length (update [] (seq 0 (w_draws w))) = w_draws w).
  { rewrite <- (seq_length (w_draws w) 0) at 2. apply Permutation_length, NoDup_Permutation; [apply update_nodup; constructor|apply seq_NoDup|]. intro x. rewrite update_in. cbn. tauto. }
  rewrite L, Nat.eqb_refl. reflexivity.
Qed.
(** Two samples whose least value is the lower boundary. *)
Definition edge_world : world :=
  mkWorld 2 (line_order 2) (fun _ _ => 1) (seq 0 2) (fun _ => 1) (fun _ => 0) (fun _ => 5) (Fin 0) PInf (fun _ => Fin 0) (Ok 2%nat) (fun l => hd 0%nat l) (fun n => 4%nat).
Lemma edge_sane : sane edge_world.
Proof. destruct (line_sane 2 (Ok 2%nat) (Fin 0) PInf) as (A & B & C & D); [intros v [= <-]; lia|]. split; [exact A|]. split; [exact B|]. split; [exact C|exact D]. Qed.
(** When sample zero is the only accepted one, the panel of the accepted samples shows all samples. *)
Theorem C82_only_first_refuted : forall refs nothing literal write extent references, exists c,
  show edge_world refs nothing literal write extent false references [Touch 0; More (fun l => l)] = Some (Ok c) /\
  s_selected (c_sess refs c) = [0%nat] /\ m_pool refs (c_mean refs c) = [0; 1]%nat.
Proof.
  intros refs nothing literal write extent references.
  assert (Z : Rltb 0 0 = false) by (destruct (Rltb_spec 0 0); [lra|reflexivity]).
  assert (O : filter (outside (w_lo edge_world) (w_hi edge_world) (w_b0 edge_world) (w_b1 edge_world)) (seq 0 (w_draws edge_world)) = []).
  { cbn. unfold outside. cbn. rewrite Z. reflexivity. }
  eexists. split; [|split].
  - unfold show, opening, initialize_subsamples. rewrite O. cbn [s_shown update fold_left List.length Nat.eqb w_draws edge_world]. cbn [steps step].
    unfold carry, carry_of, carry_on, collect_more_samples, initialize_subsamples. rewrite O.
    cbn -[plot_pp_samples floor ceil Rltb]. rewrite !Z. cbn -[floor ceil Rltb]. reflexivity.
  - reflexivity.
  - reflexivity.
Qed.

Print Assumptions C82_panels.
Print Assumptions C82_ranges.
Print Assumptions C82_choices.
Print Assumptions C82_accepted_panel.
Print Assumptions C82_clicked.
Print Assumptions C82_return_few.
Print Assumptions C82_return_refuted.
Print Assumptions C82_references_refuted.
Print Assumptions C82_nothing_within_refuted.
Print Assumptions C82_only_first_refuted.
