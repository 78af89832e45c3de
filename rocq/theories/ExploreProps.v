(** C63: each redraw of the predictive explorer shows the draws and the settings of that moment. *)
From Coq Require Import Reals List String Bool ZArith Lra Lia Sorting.Permutation Sorting.Sorted.
From Verif Require GeoProps.
From Verif Require Import Base XR LawModel LawProofs ExploreModel ExploreSpec ExploreProofs.
Import ListNotations.
Local Open Scope string_scope.
Local Open Scope list_scope.
Local Open Scope R_scope.

(** As long as no histogram is asked for, every redraw of a session is the one a new explorer would make from the same
    draws and settings, whatever was drawn before. *)
Theorem C63_lines_ignore_history : forall sort kde n refs custom kw0 events,
  (forall c data, In (c, data) events -> offered c /\ is_hist c = false) ->
  snd (session sort kde n refs custom kw0 events)
  = map (fun e => snd (redraw sort kde n refs custom kw0 (fst e) (snd e))) events.
Proof. intros sort kde n refs custom kw0 events H. apply session_line; [left; reflexivity|exact H]. Qed.

(** So it is in a session of histograms only, of a model with real-valued draws (or with bins chosen by the user). *)
Theorem C63_float_histograms_ignore_history : forall sort kde n refs custom kw0 events,
  has "color" kw0 = false -> has "ls" kw0 = false ->
  (forall c data, In (c, data) events -> is_hist c = true /\ (has "bins" kw0 = true \/ forall r, data = Ok r -> r_int r = false)) ->
  snd (session sort kde n refs custom kw0 events)
  = map (fun e => snd (redraw sort kde n refs custom kw0 (fst e) (snd e))) events.
Proof. intros sort kde n refs custom kw0 events C L H. apply session_hist; auto. left; reflexivity. Qed.

(** A user's own drawing function sees the draws of the moment, whatever was drawn before. *)
Theorem C63_custom_ignores_history : forall sort kde n refs kw0 events,
  snd (session sort kde n refs true kw0 events)
  = map (fun e => snd (redraw sort kde n refs true kw0 (fst e) (snd e))) events.
Proof.
  intros sort kde n refs kw0 events. induction events as [|[c data] es IH]; [reflexivity|].
  cbn [session map fst snd]. assert (E : redraw sort kde n refs true kw0 c data = (kw0, snd (redraw sort kde n refs true kw0 c data))).
  { unfold redraw. destruct data; reflexivity. }
  rewrite E. destruct (session sort kde n refs true kw0 es) as [kw2 outs]. cbn [snd] in *. now rewrite IH.
Qed.

(** ** What a first redraw shows *)
Lemma no_nan_clean : forall d, no_nan d = true <-> clean d.
Proof.
  intro d. unfold no_nan, clean. rewrite forallb_forall. split.
  - intros H I. specialize (H None I). discriminate H.
  - intros H [r|] I; [reflexivity|contradiction].
Qed.
Lemma clean_vals : forall d, clean d -> sample_of d (vals d).
Proof.
  intros [i l]. unfold clean, sample_of, vals. cbn [d_vals]. induction l as [|[r|] l IH]; intro H; cbn.
  - reflexivity.
  - f_equal. apply IH. intro I. apply H. now right.
  - exfalso. apply H. now left.
Qed.
Lemma nth_heights : forall n k, (k < n)%nat -> nth k (heights n) 0 = INR k / INR n.
Proof.
  intros n k H. unfold heights. rewrite nth_indep with (d' := (fun i => INR i / INR n) 0%nat) by (rewrite map_length, seq_length; exact H).
  rewrite (map_nth (fun i => INR i / INR n)). now rewrite seq_nth by exact H.
Qed.
Lemma heights_empirical : forall sort l, sorts sort -> empirical l (sort l) (heights (List.length l)).
Proof.
  intros sort l S. destruct (S l) as [P O]. assert (L := Permutation_length P). split; [exact P|split; [exact O|split]].
  - unfold heights. rewrite map_length, seq_length. symmetry. exact L.
  - intros k H. apply nth_heights. lia.
Qed.
Lemma curves_app : forall a b, curves (a ++ b) = curves a ++ curves b.
Proof. intros a b. unfold curves. apply flat_map_app. Qed.
Lemma curves_refs : forall refs, curves (plot_references refs) = [].
Proof.
  intros [|x|l|l]; cbn; try reflexivity; unfold curves.
  - induction l as [|x l IH]; [reflexivity|exact IH].
  - induction l as [|[s x] l IH]; [reflexivity|exact IH].
Qed.
Lemma curves_map : forall {A} (f : A -> list R * list R) st l, curves (map (fun a => Curve (fst (f a)) (snd (f a)) st) l) = map f l.
Proof. intros A f st l. induction l as [|a l IH]; cbn; [reflexivity|]. rewrite <- surjective_pairing. f_equal. exact IH. Qed.
Lemma same_lengths_all : forall r l x, same_lengths (r :: l) = true -> In x (r :: l) -> List.length x = List.length r.
Proof.
  intros r l x H [E|I]; [now subst|]. cbn in H. rewrite forallb_forall in H. apply Nat.eqb_eq. exact (H x I).
Qed.
Lemma curves_limits : forall (c : controls) l,
  curves ([ (if c_set_xlim c then XLim (Some (c_x_min c)) (Some (c_x_max c)) false else XLim None None true)
          ; (if c_set_ylim c then YLim (Some (c_y_min c)) (Some (c_y_max c)) false else YLim None None true) ] ++ l) = curves l.
Proof. intros c l. rewrite curves_app. destruct (c_set_xlim c), (c_set_ylim c); reflexivity. Qed.

(** Of the draws of a function those without NaN are stacked, each as a row, and the array is one of integers exactly if all of them are; draws of
    different lengths stop the redraw with ValueError. *)
Theorem C63_collected : forall draws,
  ((forall a b, In a draws -> In b draws -> clean a -> clean b -> List.length (d_vals a) = List.length (d_vals b)) ->
   exists r kept, collect draws = Ok r /\ (forall d, In d kept <-> In d draws /\ clean d) /\ Forall2 sample_of kept (r_rows r) /\
     (r_int r = true <-> forall d, In d draws -> clean d -> d_int d = true)) /\
  (forall a b, In a draws -> In b draws -> clean a -> clean b -> List.length (d_vals a) <> List.length (d_vals b) -> collect draws = Err ValueError).
Proof.
  intro draws. assert (K : forall d, In d (filter no_nan draws) <-> In d draws /\ clean d) by (intro d; rewrite filter_In, no_nan_clean; reflexivity).
  assert (L : forall d, clean d -> List.length (vals d) = List.length (d_vals d)) by (intros d C; rewrite (clean_vals d C), map_length; reflexivity).
  unfold collect. split.
  - intro H. replace (same_lengths (map vals (filter no_nan draws))) with true.
    + eexists. exists (filter no_nan draws). split; [reflexivity|]. split; [exact K|]. cbn [r_rows r_int]. split.
      * assert (C : forall d, In d (filter no_nan draws) -> clean d) by (intros d I; apply K in I; tauto). clear K H.
        induction (filter no_nan draws) as [|d l IH]; constructor; [apply clean_vals, C; left; reflexivity | apply IH; intros; apply C; right; assumption].
      * rewrite forallb_forall. split; intros A d; [intros I C; apply A, K; auto | intro I; apply K in I as [I C]; auto].
    + symmetry. unfold same_lengths. destruct (filter no_nan draws) as [|d l] eqn:E; [reflexivity|]. cbn [map]. apply forallb_forall. intros x I.
      apply in_map_iff in I as (a & <- & I). apply Nat.eqb_eq.
      assert (A : In a draws /\ clean a) by (apply K; right; exact I). assert (D : In d draws /\ clean d) by (apply K; left; reflexivity).
      rewrite !L by tauto. apply H; tauto.
  - intros a b Ia Ib Ca Cb N. destruct (same_lengths (map vals (filter no_nan draws))) eqn:E; [exfalso|reflexivity].
    apply N. rewrite <- !L by assumption.
    assert (Ka : In (vals a) (map vals (filter no_nan draws))) by (apply in_map, K; auto).
    assert (Kb : In (vals b) (map vals (filter no_nan draws))) by (apply in_map, K; auto).
    destruct (map vals (filter no_nan draws)) as [|r l]; [contradiction|].
    rewrite (same_lengths_all r l _ E Ka), (same_lengths_all r l _ E Kb). reflexivity.
Qed.
(** The kept draws are the clean ones, in their order; the empirical distribution of each is drawn, and that of all of
    them together, at every redraw before any histogram. *)
Theorem C63_ecdf_shows_clean_draws : forall sort kde n refs kw0 draws c r,
  sorts sort -> plot_accepts kw0 = true -> c_kind c = "ecdf" -> collect draws = Ok r -> (exists d, In d draws /\ clean d) ->
  exists calls kept cs pooled,
    snd (redraw sort kde n refs false kw0 c (collect draws)) = (calls, None) /\
    (forall d, In d kept <-> In d draws /\ clean d) /\
    Forall2 sample_of kept (r_rows r) /\
    curves calls = cs ++ [pooled] /\
    Forall2 (fun row xy => empirical row (fst xy) (snd xy)) (r_rows r) cs /\
    empirical (List.concat (r_rows r)) (fst pooled) (snd pooled).
Proof.
  intros sort kde n refs kw0 draws c r S A K Ec [d0 [I0 C0]]. rewrite Ec. unfold collect in Ec.
  destruct (same_lengths (map vals (filter no_nan draws))) eqn:SL; [|discriminate Ec].
  assert (Er : r_rows r = map vals (filter no_nan draws)) by (inversion Ec; reflexivity). clear Ec.
  assert (A' : plot_accepts (line_kw n kw0) = true).
  { unfold plot_accepts in *. unfold line_kw. rewrite !has_setdefault_neq by discriminate. exact A. }
  unfold redraw. rewrite K. unfold plot_repr. cbn [String.eqb Ascii.eqb Bool.eqb]. unfold plot_ecdfs. fold (line_kw n kw0).
  assert (KI : forall d, In d (filter no_nan draws) <-> In d draws /\ clean d).
  { intro d. rewrite filter_In, no_nan_clean. reflexivity. }
  assert (NE : r_rows r <> []).
  { rewrite Er. intro E. assert (I : In d0 (filter no_nan draws)) by (apply KI; auto). destruct (filter no_nan draws); [exact I|discriminate E]. }
  destruct (r_rows r) as [|row0 rows] eqn:Rr; [contradiction|]. rewrite A'. cbn [negb fst snd].
  set (f := fun row : list R => (sort row, heights (List.length row0))).
  exists (([ (if c_set_xlim c then XLim (Some (c_x_min c)) (Some (c_x_max c)) false else XLim None None true)
           ; (if c_set_ylim c then YLim (Some (c_y_min c)) (Some (c_y_max c)) false else YLim None None true) ]
     ++ (map (fun row => Curve (fst (f row)) (snd (f row)) (Styled (line_kw n kw0))) (row0 :: rows)
     ++ [Curve (sort (List.concat (row0 :: rows))) (heights (List.length (List.concat (row0 :: rows)))) Dashed] ++ plot_references refs))).
  exists (filter no_nan draws), (map f (row0 :: rows)), (sort (List.concat (row0 :: rows)), heights (List.length (List.concat (row0 :: rows)))).
  split; [reflexivity|split; [exact KI|]].
  split.
  { rewrite Er. assert (F : Forall clean (filter no_nan draws)) by (apply Forall_forall; intros x I; now apply KI).
    clear - F. induction F as [|d' l' C F IH]; [constructor|]. constructor; [apply clean_vals; exact C|exact IH]. }
  split.
  { rewrite curves_limits. rewrite curves_app, curves_map, curves_app, curves_refs, app_nil_r. reflexivity. }
  split; [|apply heights_empirical; exact S].
  assert (SLr : forall x, In x (row0 :: rows) -> List.length x = List.length row0).
  { intros x I. apply same_lengths_all with (l := rows); [rewrite Er; exact SL|exact I]. }
  clear - S SLr. revert SLr. generalize (row0 :: rows). intros l SLr. induction l as [|x l IH]; cbn; [constructor|].
  constructor; [|apply IH; intros y I; apply SLr; now right]. unfold f. cbn [fst snd]. rewrite <- (SLr x (or_introl eq_refl)).
  apply heights_empirical. exact S.
Qed.

(** Likewise the kernel density estimates. *)
Theorem C63_kde_shows_clean_draws : forall sort kde n refs kw0 draws c r,
  plot_accepts kw0 = true -> c_kind c = "kde" -> collect draws = Ok r -> (exists d, In d draws /\ clean d) ->
  exists calls kept,
    snd (redraw sort kde n refs false kw0 c (collect draws)) = (calls, None) /\
    (forall d, In d kept <-> In d draws /\ clean d) /\
    Forall2 sample_of kept (r_rows r) /\
    curves calls = map kde (r_rows r) ++ [kde (List.concat (r_rows r))].
Proof.
  intros sort kde n refs kw0 draws c r A K Ec [d0 [I0 C0]]. rewrite Ec. unfold collect in Ec.
  destruct (same_lengths (map vals (filter no_nan draws))) eqn:SL; [|discriminate Ec].
  assert (Er : r_rows r = map vals (filter no_nan draws)) by (inversion Ec; reflexivity). clear Ec.
  assert (A' : plot_accepts (line_kw n kw0) = true).
  { unfold plot_accepts in *. unfold line_kw. rewrite !has_setdefault_neq by discriminate. exact A. }
  unfold redraw. rewrite K. unfold plot_repr. cbn [String.eqb Ascii.eqb Bool.eqb]. unfold plot_kdes. fold (line_kw n kw0).
  assert (KI : forall d, In d (filter no_nan draws) <-> In d draws /\ clean d).
  { intro d. rewrite filter_In, no_nan_clean. reflexivity. }
  assert (NE : r_rows r <> []).
  { rewrite Er. intro E. assert (I : In d0 (filter no_nan draws)) by (apply KI; auto). destruct (filter no_nan draws); [exact I|discriminate E]. }
  destruct (r_rows r) as [|row0 rows] eqn:Rr; [contradiction|]. rewrite A'. cbn [negb fst snd].
  eexists. exists (filter no_nan draws). split; [reflexivity|split; [exact KI|split]].
  { rewrite Er. assert (F : Forall clean (filter no_nan draws)) by (apply Forall_forall; intros x I; now apply KI).
    clear - F. induction F as [|d' l' C F IH]; [constructor|]. constructor; [apply clean_vals; exact C|exact IH]. }
  rewrite curves_limits. rewrite curves_app, curves_map, curves_app, curves_refs, app_nil_r. cbn [curves flat_map app]. now rewrite <- surjective_pairing.
Qed.

(** The empirical curve never reaches 1: the largest of n values is drawn at 1 - 1/n, where the empirical distribution
    function is 1. *)
Theorem C63_ecdf_top_refuted : forall sample xs ys, empirical sample xs ys -> sample <> [] ->
  nth (List.length xs - 1) ys 0 = 1 - / INR (List.length sample) /\ Forall (fun y => y < 1) ys.
Proof.
  intros sample xs ys [P [O [L H]]] N. assert (LP := Permutation_length P).
  assert (Pos : (0 < List.length xs)%nat) by (destruct sample; [contradiction|cbn in LP; lia]).
  assert (R0 : 0 < INR (List.length sample)) by (apply lt_0_INR; lia).
  split.
  - rewrite H by lia. rewrite LP, minus_INR by lia. cbn [INR]. field. lra.
  - apply Forall_forall. intros y I. apply In_nth with (d := 0) in I. destruct I as [k [Lk E]]. subst y. rewrite H by lia.
    apply Rmult_lt_reg_r with (INR (List.length sample)); [exact R0|]. unfold Rdiv. rewrite Rmult_assoc, Rinv_l by lra.
    rewrite Rmult_1_l, Rmult_1_r. apply lt_INR. lia.
Qed.

(** The lines and labels asked for as references are drawn, and no others, at every redraw that succeeds. *)
Lemma lines_app : forall a b, lines_at (a ++ b) = lines_at a ++ lines_at b.
Proof. intros. apply flat_map_app. Qed.
Lemma labels_app : forall a b, labels_at (a ++ b) = labels_at a ++ labels_at b.
Proof. intros. apply flat_map_app. Qed.
Lemma lines_refs : forall refs, lines_at (plot_references refs) = values_of refs.
Proof.
  intros [|x|l|l]; cbn; try reflexivity; unfold lines_at.
  - induction l as [|x l IH]; cbn; [reflexivity|f_equal; exact IH].
  - induction l as [|[s x] l IH]; cbn; [reflexivity|f_equal; exact IH].
Qed.
Lemma lines_curves : forall {A} (f g : A -> list R) st l, lines_at (map (fun a => Curve (f a) (g a) st) l) = [].
Proof. intros. induction l as [|a l IH]; [reflexivity|exact IH]. Qed.
Lemma lines_ticks : forall r, lines_at (hist_ticks r) = [].
Proof. intro r. unfold hist_ticks. destruct (r_int r && _); reflexivity. Qed.

Theorem C63_references : forall sort kde n refs kw c data calls, offered c ->
  snd (redraw sort kde n refs false kw c data) = (calls, None) -> lines_at calls = values_of refs.
Proof.
  intros sort kde n refs kw c data calls O. unfold redraw. destruct data as [r|e]; [|discriminate].
  assert (G : forall out, snd (plot_repr sort kde r (c_kind c) refs n kw) = out -> snd out = None -> lines_at (fst out) = values_of refs).
  { intros out E N. subst out. unfold plot_repr in *. destruct (String.eqb (c_kind c) "hist").
    - unfold plot_hist in *. destruct (r_rows r); [discriminate N|]. destruct (negb _); [discriminate N|]. cbn [fst snd].
      rewrite lines_app, lines_ticks, lines_app. cbn [lines_at flat_map app]. apply lines_refs.
    - destruct (String.eqb (c_kind c) "kde"); [|destruct (String.eqb (c_kind c) "ecdf")].
      + unfold plot_kdes in *. destruct (r_rows r); [discriminate N|]. destruct (negb _); [discriminate N|]. cbn [fst snd].
        rewrite lines_app, lines_curves, lines_app. cbn [lines_at flat_map app]. apply lines_refs.
      + unfold plot_ecdfs in *. destruct (r_rows r); [discriminate N|]. destruct (negb _); [discriminate N|]. cbn [fst snd].
        rewrite lines_app, lines_curves, lines_app. cbn [lines_at flat_map app]. apply lines_refs.
      + cbn [fst snd]. apply lines_refs. }
  specialize (G _ eq_refl). destruct (plot_repr sort kde r (c_kind c) refs n kw) as [kw' out]. cbn [fst snd] in *.
  intro E. assert (N : snd out = None) by exact (f_equal snd E). specialize (G N).
  assert (F := f_equal fst E). cbn [fst] in F. rewrite <- F. destruct (c_set_xlim c), (c_set_ylim c); exact G.
Qed.

(** The limits of the axes are the ones typed in when their box is ticked, and automatic otherwise, whatever happens next. *)
Theorem C63_limits : forall sort kde n refs custom kw c r,
  let calls := fst (snd (redraw sort kde n refs custom kw c (Ok r))) in
  In (if c_set_xlim c then XLim (Some (c_x_min c)) (Some (c_x_max c)) false else XLim None None true) calls /\
  In (if c_set_ylim c then YLim (Some (c_y_min c)) (Some (c_y_max c)) false else YLim None None true) calls.
Proof.
  intros. unfold calls, redraw. destruct custom; cbn [fst snd].
  - split; [left|right; left]; reflexivity.
  - destruct (plot_repr sort kde r (c_kind c) refs n kw) as [kw' out]. split; [left|right; left]; reflexivity.
Qed.

(** ** The bins of integers *)
Lemma fold_min : forall l d, fold_right Rmin d l <= d /\ (forall x, In x l -> fold_right Rmin d l <= x) /\ (fold_right Rmin d l = d \/ In (fold_right Rmin d l) l).
Proof.
  induction l as [|a l IH]; intro d; cbn.
  - split; [lra|split; [intros x []|now left]].
  - destruct (IH d) as [A [B C]]. assert (M1 := Rmin_l a (fold_right Rmin d l)). assert (M2 := Rmin_r a (fold_right Rmin d l)).
    split; [lra|split].
    + intros x [E|I]; [subst; lra|]. specialize (B x I). lra.
    + destruct (Rle_dec a (fold_right Rmin d l)) as [Q|Q]; [rewrite Rmin_left by exact Q; right; now left|].
      rewrite Rmin_right by lra. destruct C as [C|C]; [left; exact C|right; now right].
Qed.
Lemma fold_max : forall l d, d <= fold_right Rmax d l /\ (forall x, In x l -> x <= fold_right Rmax d l) /\ (fold_right Rmax d l = d \/ In (fold_right Rmax d l) l).
Proof.
  induction l as [|a l IH]; intro d; cbn.
  - split; [lra|split; [intros x []|now left]].
  - destruct (IH d) as [A [B C]]. assert (M1 := Rmax_l a (fold_right Rmax d l)). assert (M2 := Rmax_r a (fold_right Rmax d l)).
    split; [lra|split].
    + intros x [E|I]; [subst; lra|]. specialize (B x I). lra.
    + destruct (Rle_dec a (fold_right Rmax d l)) as [Q|Q]; [|rewrite Rmax_left by lra; right; now left].
      rewrite Rmax_right by exact Q. destruct C as [C|C]; [left; exact C|right; now right].
Qed.
Lemma np_min_spec : forall l x, In x l -> np_min l <= x /\ In (np_min l) l.
Proof.
  intros l x I. unfold np_min. destruct (fold_min l (hd 0 l)) as [A [B C]]. split; [auto|].
  destruct C as [C|C]; [|exact C]. rewrite C. destruct l; [contradiction|now left].
Qed.
Lemma np_max_spec : forall l x, In x l -> x <= np_max l /\ In (np_max l) l.
Proof.
  intros l x I. unfold np_max. destruct (fold_max l (hd 0 l)) as [A [B C]]. split; [auto|].
  destruct C as [C|C]; [|exact C]. rewrite C. destruct l; [contradiction|now left].
Qed.
Lemma in_concat_rows : forall (rows : list (list R)) row x, In row rows -> In x row -> In x (List.concat rows).
Proof. intros rows row x I J. apply in_concat. now exists row. Qed.

Lemma integer_bins_spec : forall rows, integers rows -> (exists x, In x (List.concat rows)) ->
  exists m M, np_min (List.concat rows) = IZR m /\ np_max (List.concat rows) = IZR M /\ (m <= M)%Z /\
    List.length (integer_bins rows) = Z.to_nat (M - m + 2) /\
    forall i, (i < Z.to_nat (M - m + 2))%nat -> nth i (integer_bins rows) 0 = IZR m + INR i - / 2.
Proof.
  intros rows Hi [x0 Ix].
  destruct (np_min_spec _ _ Ix) as [Lm Im]. destruct (np_max_spec _ _ Ix) as [LM IM].
  assert (Z1 : forall y, In y (List.concat rows) -> exists z, y = IZR z).
  { intros y I. apply in_concat in I. destruct I as [row [I J]]. exact (Hi row y I J). }
  destruct (Z1 _ Im) as [m Em]. destruct (Z1 _ IM) as [M EM]. exists m, M. split; [exact Em|split; [exact EM|]].
  assert (LE : (m <= M)%Z) by (apply le_IZR; lra). split; [exact LE|].
  assert (Cl : ceil (np_max (List.concat rows) + 3 / 2 - np_min (List.concat rows)) = (M - m + 2)%Z).
  { rewrite Em, EM. unfold ceil. rewrite (Int_part_unique (- (IZR M + 3 / 2 - IZR m)) (- (M - m + 2))).
    - lia.
    - rewrite opp_IZR, plus_IZR, minus_IZR. lra. }
  unfold integer_bins, np_arange. rewrite Cl, Em. split.
  - now rewrite !map_length, seq_length.
  - intros i H. rewrite nth_indep with (d' := (fun b => b - / 2) ((fun k => IZR m + INR k) 0%nat)) by (rewrite !map_length, seq_length; exact H).
    rewrite (map_nth (fun b => b - / 2)). rewrite (map_nth (fun k => IZR m + INR k)). now rewrite seq_nth by exact H.
Qed.

Lemma integer_bins_empty : forall rows, List.concat rows = [] -> integer_bins rows = [0 + 0 - / 2; 0 + 1 - / 2].
Proof.
  intros rows E. unfold integer_bins. rewrite E. unfold np_arange, np_min, np_max. cbn [fold_right hd].
  assert (Cl : ceil (0 + 3 / 2 - 0) = 2%Z).
  { unfold ceil. rewrite (Int_part_unique (- (0 + 3 / 2 - 0)) (-2)); [reflexivity|]. lra. }
  rewrite Cl. reflexivity.
Qed.

(** The histogram of an integer-valued model, drawn first: every value falls into exactly one bin, and a bin never holds
    two different integers. *)
Theorem C63_integer_bins : forall sort kde n refs kw0 c r calls,
  has "bins" kw0 = false -> is_hist c = true -> r_int r = true -> integers (r_rows r) ->
  snd (redraw sort kde n refs false kw0 c (Ok r)) = (calls, None) ->
  exists kw edges, In (Hist (r_rows r) kw) calls /\ getkw "bins" kw = Some (VBins edges) /\
    (forall row x, In row (r_rows r) -> In x row -> exists! i, in_bin edges i x) /\
    (forall i z1 z2, in_bin edges i (IZR z1) -> in_bin edges i (IZR z2) -> z1 = z2).
Proof.
  intros sort kde n refs kw0 c r calls B K I Hi E. unfold redraw in E. unfold is_hist in K. apply String.eqb_eq in K. rewrite K in E.
  destruct (r_rows r) as [|row0 rows] eqn:Rr.
  { unfold plot_repr in E. cbn [String.eqb Ascii.eqb Bool.eqb] in E. unfold plot_hist in E. rewrite Rr in E. discriminate E. }
  rewrite plot_hist_repr in E by (rewrite Rr; discriminate). cbn zeta in E. set (kw1 := setdefault "color" _ _) in *.
  destruct (negb (hist_accepts (List.length (r_rows r)) kw1)); [discriminate E|]. apply (f_equal fst) in E. cbn [fst snd] in E.
  exists kw1, (integer_bins (row0 :: rows)). split.
  { rewrite <- E, Rr. apply in_or_app. right. apply in_or_app. right. now left. }
  split.
  { unfold kw1, hist_kw. rewrite !(getkw_setdefault_neq "bins") by discriminate. rewrite getkw_setdefault_same.
    rewrite (getkw_setdefault_neq "bins") by discriminate. rewrite has_getkw in B. destruct (getkw "bins" kw0); [discriminate B|].
    unfold hist_bins. now rewrite I, Rr. }
  split.
  - intros row x Ir Ixr. assert (Ix := in_concat_rows _ _ _ Ir Ixr).
    destruct (integer_bins_spec _ Hi (ex_intro _ x Ix)) as [m [M [Em [EM [LE [Ln Nt]]]]]].
    destruct (Hi row x Ir Ixr) as [z Ez]. subst x. destruct (np_min_spec _ _ Ix) as [Lo _]. destruct (np_max_spec _ _ Ix) as [Up _].
    rewrite Em in Lo. rewrite EM in Up. apply le_IZR in Lo. apply le_IZR in Up.
    exists (Z.to_nat (z - m)). split.
    + unfold in_bin. rewrite Ln. split; [lia|]. rewrite !Nt by lia. rewrite plus_INR. rewrite !INR_IZR_INZ, Z2Nat.id by lia. rewrite minus_IZR. cbn. lra.
    + intros j [Lj [A C]]. rewrite Ln in Lj. rewrite Nt in A by lia. rewrite Nt in C by lia. rewrite plus_INR in C. cbn [INR] in C.
      rewrite INR_IZR_INZ in A, C. assert (D1 : (Z.of_nat j < z - m + 1)%Z) by (apply lt_IZR; rewrite plus_IZR, minus_IZR; lra).
      assert (D2 : (z - m - 1 < Z.of_nat j)%Z) by (apply lt_IZR; rewrite !minus_IZR; lra). lia.
  - intros i z1 z2 [L1 [A1 C1]] [L2 [A2 C2]].
    destruct (List.concat (row0 :: rows)) as [|x0 xs] eqn:Ec.
    { rewrite integer_bins_empty in L1, A1, C1, A2, C2 by exact Ec. destruct i as [|i]; [|cbn [List.length] in L1; lia].
      cbn [nth Nat.add] in A1, C1, A2, C2.
      assert (z1 = 0%Z) by (assert ((-1 < z1)%Z) by (apply lt_IZR; lra); assert ((z1 < 1)%Z) by (apply lt_IZR; lra); lia).
      assert (z2 = 0%Z) by (assert ((-1 < z2)%Z) by (apply lt_IZR; lra); assert ((z2 < 1)%Z) by (apply lt_IZR; lra); lia). lia. }
    assert (Ex : exists x, In x (List.concat (row0 :: rows))) by (exists x0; rewrite Ec; now left).
    destruct (integer_bins_spec _ Hi Ex) as [m [M [Em [EM [LE [Ln Nt]]]]]]. rewrite Ln in L1.
    rewrite Nt in A1, A2 by lia. rewrite Nt in C1, C2 by lia. rewrite plus_INR in C1, C2. cbn [INR] in C1, C2.
    assert (D1 : (z1 < z2 + 1)%Z) by (apply lt_IZR; rewrite plus_IZR; lra).
    assert (D2 : (z2 < z1 + 1)%Z) by (apply lt_IZR; rewrite plus_IZR; lra). lia.
Qed.

(** ** What goes wrong *)
Lemma keeps_bins : keeps "bins".
Proof. split; discriminate. Qed.


(** Once a histogram has been drawn, every later redraw as a density or as an empirical distribution fails and shows
    nothing: the bins and the other settings of the histogram stay in the dictionary, and the line plots refuse them. *)
Theorem C63_line_after_histogram_refuted : forall sort kde n refs kw0 before c1 r1 between c2 r2 after,
  is_hist c1 = true -> r_rows r1 <> [] -> offered c2 -> is_hist c2 = false -> r_rows r2 <> [] ->
  let events := before ++ (c1, Ok r1) :: between ++ (c2, Ok r2) :: after in
  exists o, nth_redraw (snd (session sort kde n refs false kw0 events)) (List.length before + 1 + List.length between) = Some o
    /\ snd o = Some AttributeError /\ shows_no_sample o.
Proof.
  intros sort kde n refs kw0 before c1 r1 between c2 r2 after H1 N1 O2 H2 N2 events.
  assert (Ee : events = (before ++ (c1, Ok r1) :: between) ++ (c2, Ok r2) :: after) by (unfold events; rewrite <- app_assoc; reflexivity).
  assert (Le : (List.length before + 1 + List.length between)%nat = List.length (before ++ (c1, Ok r1) :: between)) by (rewrite app_length; cbn; lia).
  unfold nth_redraw. rewrite Ee, Le, session_mid.
  set (kw := fst (session sort kde n refs false kw0 (before ++ (c1, Ok r1) :: between))).
  assert (B : exists b, getkw "bins" kw = Some b).
  { unfold kw. rewrite session_fst_app. cbn [session].
    assert (G := redraw_hist_bins sort kde n refs (fst (session sort kde n refs false kw0 before)) c1 r1 H1 N1).
    destruct (redraw sort kde n refs false (fst (session sort kde n refs false kw0 before)) c1 (Ok r1)) as [kw1 out]. cbn [fst] in G.
    assert (G2 := session_keeps sort kde n refs false between kw1 "bins" _ keeps_bins G).
    destruct (session sort kde n refs false kw1 between) as [kw2 outs]. eexists. exact G2. }
  destruct B as [b B]. eexists. split; [reflexivity|].
  apply line_with_bins_fails with (b := b); auto.
  unfold offered in O2. cbn in O2. unfold is_hist in H2. destruct O2 as [E|[E|[E|[]]]]; auto. rewrite <- E in H2. discriminate H2.
Qed.

(** A density or empirical distribution followed by a histogram of two draws or more ends the session: neither that
    histogram nor anything asked for later is drawn. *)
Theorem C63_histogram_after_line_refuted : forall sort kde n refs kw0 c1 r1 c2 r2 later,
  has "color" kw0 = false -> offered c1 -> is_hist c1 = false -> is_hist c2 = true -> (2 <= List.length (r_rows r2))%nat ->
  (forall c data, In (c, data) later -> offered c /\ exists r, data = Ok r /\ (2 <= List.length (r_rows r))%nat) ->
  exists o1 os, snd (session sort kde n refs false kw0 ((c1, Ok r1) :: (c2, Ok r2) :: later)) = o1 :: os
    /\ List.length os = S (List.length later) /\ Forall (fun o => failed o /\ shows_no_sample o) os.
Proof.
  intros sort kde n refs kw0 c1 r1 c2 r2 later C O1 H1 H2 N2 L. cbn [session].
  assert (K1 : c_kind c1 = "kde" \/ c_kind c1 = "ecdf").
  { unfold offered in O1. cbn in O1. unfold is_hist in H1. destruct O1 as [E|[E|[E|[]]]]; auto. rewrite <- E in H1. discriminate H1. }
  assert (G := line_colour sort kde n refs kw0 c1 r1 K1). rewrite has_getkw in C. destruct (getkw "color" kw0); [discriminate C|].
  destruct (redraw sort kde n refs false kw0 c1 (Ok r1)) as [kw1 o1]. cbn [fst] in G.
  destruct (hist_with_colour_fails sort kde n refs kw1 c2 r2 "0.5" H2 N2 G) as [E [Sh G2]].
  assert (NE : r_rows r2 <> []) by (intro E0; rewrite E0 in N2; cbn in N2; lia).
  assert (B := redraw_hist_bins sort kde n refs kw1 c2 r2 H2 NE).
  destruct (redraw sort kde n refs false kw1 c2 (Ok r2)) as [kw2 o2]. cbn [fst snd] in *.
  assert (D : dead kw2) by (split; [now exists "0.5"|eexists; exact B]).
  assert (F := dead_session sort kde n refs later kw2 D L). assert (Len := session_length sort kde n refs false later kw2).
  destruct (session sort kde n refs false kw2 later) as [kw3 outs]. cbn [snd] in *. exists o1, (o2 :: outs). split; [reflexivity|split].
  - cbn. now rewrite Len.
  - constructor; [split; [eexists; exact E|exact Sh]|exact F].
Qed.

(** The bins of the first histogram of an integer-valued model serve for all later ones. When the parameters change and
    the draws move above the first range, no value of the new draws falls into any bin. *)
Theorem C63_stale_bins_refuted : forall sort kde n refs kw0 c1 r1 between c2 r2 after calls,
  has "bins" kw0 = false -> is_hist c1 = true -> r_int r1 = true -> integers (r_rows r1) -> (exists x, In x (List.concat (r_rows r1))) ->
  is_hist c2 = true ->
  (forall x y, In x (List.concat (r_rows r2)) -> In y (List.concat (r_rows r1)) -> y + 1 <= x) ->
  let events := (c1, Ok r1) :: between ++ (c2, Ok r2) :: after in
  nth_redraw (snd (session sort kde n refs false kw0 events)) (S (List.length between)) = Some (calls, None) ->
  exists kw edges, In (Hist (r_rows r2) kw) calls /\ getkw "bins" kw = Some (VBins edges) /\
    forall row x i, In row (r_rows r2) -> In x row -> ~ in_bin edges i x.
Proof.
  intros sort kde n refs kw0 c1 r1 between c2 r2 after calls B H1 I1 Hi Ex H2 Far events E.
  assert (NE1 : r_rows r1 <> []) by (intro E0; rewrite E0 in Ex; destruct Ex as [x []]).
  assert (Ee : events = ((c1, Ok r1) :: between) ++ (c2, Ok r2) :: after) by reflexivity.
  unfold nth_redraw in E. rewrite Ee in E. replace (S (List.length between)) with (List.length ((c1, Ok r1) :: between)) in E by reflexivity.
  rewrite session_mid in E. set (kw := fst (session sort kde n refs false kw0 ((c1, Ok r1) :: between))) in E.
  assert (Kb : getkw "bins" kw = Some (VBins (integer_bins (r_rows r1)))).
  { unfold kw. cbn [session]. assert (G := redraw_hist_bins sort kde n refs kw0 c1 r1 H1 NE1).
    rewrite has_getkw in B. destruct (getkw "bins" kw0); [discriminate B|]. unfold hist_bins in G. rewrite I1 in G.
    destruct (redraw sort kde n refs false kw0 c1 (Ok r1)) as [kw1 out]. cbn [fst] in G.
    assert (G2 := session_keeps sort kde n refs false between kw1 "bins" _ keeps_bins G).
    destruct (session sort kde n refs false kw1 between) as [kw2 outs]. exact G2. }
  assert (E1 : snd (redraw sort kde n refs false kw c2 (Ok r2)) = (calls, None)) by congruence. clear E.
  unfold redraw in E1. unfold is_hist in H2. apply String.eqb_eq in H2. rewrite H2 in E1.
  destruct (r_rows r2) as [|row0 rows] eqn:Rr.
  { unfold plot_repr in E1. cbn [String.eqb Ascii.eqb Bool.eqb] in E1. unfold plot_hist in E1. rewrite Rr in E1. discriminate E1. }
  rewrite plot_hist_repr in E1 by (rewrite Rr; discriminate). cbn zeta in E1. set (kw1 := setdefault "color" _ _) in *.
  destruct (negb (hist_accepts (List.length (r_rows r2)) kw1)); [discriminate E1|]. apply (f_equal fst) in E1. cbn [fst snd] in E1.
  exists kw1, (integer_bins (r_rows r1)). split; [|split].
  - rewrite <- E1, Rr. apply in_or_app. right. apply in_or_app. right. now left.
  - unfold kw1. apply getkw_setdefault_some. unfold hist_kw. repeat apply getkw_setdefault_some. exact Kb.
  - intros row x i Ir Ix [L [A C]]. destruct (integer_bins_spec _ Hi Ex) as [m [M [Em [EM [LE [Ln Nt]]]]]]. rewrite Ln in L.
    rewrite Nt in C by lia. destruct Ex as [x1 Ix1]. destruct (np_max_spec _ _ Ix1) as [_ IM]. rewrite EM in IM.
    specialize (Far x (IZR M) (in_concat_rows _ _ _ Ir Ix) IM).
    assert (INR (i + 1) <= IZR M - IZR m + 1).
    { rewrite INR_IZR_INZ. rewrite <- minus_IZR. change 1 with (IZR 1). rewrite <- plus_IZR. apply IZR_le. lia. }
    lra.
Qed.

(** The user's own colour and line style serve for the first histogram only. *)
Theorem C63_user_style_refuted : forall sort kde n refs kw0 c1 r1 calls k,
  is_hist c1 = true -> In k ["color"; "ls"]%string -> has k kw0 = true ->
  snd (redraw sort kde n refs false kw0 c1 (Ok r1)) = (calls, None) ->
  has k (fst (redraw sort kde n refs false kw0 c1 (Ok r1))) = false.
Proof.
  intros sort kde n refs kw0 c1 r1 calls k H1 Ik Hk E. unfold redraw in *. unfold is_hist in H1. apply String.eqb_eq in H1. rewrite H1 in *.
  destruct (r_rows r1) as [|row0 rows] eqn:Rr.
  { unfold plot_repr in E. cbn [String.eqb Ascii.eqb Bool.eqb] in E. unfold plot_hist in E. rewrite Rr in E. discriminate E. }
  rewrite plot_hist_repr in E by (rewrite Rr; discriminate). rewrite plot_hist_repr by (rewrite Rr; discriminate). cbn zeta in *.
  set (kw1 := setdefault "color" _ _) in *. destruct (negb (hist_accepts (List.length (r_rows r1)) kw1)); [discriminate E|]. cbn [fst].
  assert (P : forall k' d, has k' (pop k' d) = false).
  { intros k' d. induction d as [|[a v] d IH]; [reflexivity|]. cbn [pop filter fst]. destruct (String.eqb a k') eqn:Ea; cbn [negb]; [exact IH|].
    cbn [has existsb fst]. rewrite Ea. exact IH. }
  cbn in Ik. destruct Ik as [Ik|[Ik|[]]]; subst k.
  - rewrite has_pop_neq by discriminate. apply P.
  - apply P.
Qed.

(** A histogram fails as soon as one draw holds a NaN, though such draws are meant to be left out: as many colours are
    asked for as there were draws, and there are fewer data sets. *)
Theorem C63_nan_histogram_refuted : forall sort kde refs kw0 draws c r,
  has "color" kw0 = false -> is_hist c = true -> collect draws = Ok r -> (exists d, In d draws /\ ~ clean d) -> (exists d, In d draws /\ clean d) ->
  let o := snd (redraw sort kde (List.length draws) refs false kw0 c (collect draws)) in snd o = Some ValueError /\ shows_no_sample o.
Proof.
  intros sort kde refs kw0 draws c r C K Ec [d1 [I1 N1]] [d0 [I0 C0]]. rewrite Ec. unfold collect in Ec.
  destruct (same_lengths (map vals (filter no_nan draws))) eqn:SL; [|discriminate Ec].
  assert (Er : r_rows r = map vals (filter no_nan draws)) by (inversion Ec; reflexivity). clear Ec. cbn zeta.
  assert (Len : (List.length (r_rows r) < List.length draws)%nat).
  { rewrite Er, map_length. clear - I1 N1. induction draws as [|d l IH]; [contradiction|]. cbn [filter List.length].
    assert (LE : forall m, (List.length (filter no_nan m) <= List.length m)%nat).
    { intro m. induction m as [|y m IHm]; cbn; [lia|]. destruct (no_nan y); cbn; lia. }
    destruct I1 as [E|I].
    - subst d. destruct (no_nan d1) eqn:E; [apply no_nan_clean in E; contradiction|]. specialize (LE l). lia.
    - specialize (IH I). destruct (no_nan d); cbn; lia. }
  assert (NE : r_rows r <> []).
  { rewrite Er. intro E. assert (I : In d0 (filter no_nan draws)) by (apply filter_In; split; [exact I0|now apply no_nan_clean]).
    destruct (filter no_nan draws); [exact I|discriminate E]. }
  unfold redraw. unfold is_hist in K. apply String.eqb_eq in K. rewrite K, plot_hist_repr by exact NE. cbn zeta. set (kw1 := setdefault "color" _ _).
  assert (A : hist_accepts (List.length (r_rows r)) kw1 = false).
  { unfold hist_accepts, kw1. rewrite getkw_setdefault_same. rewrite has_getkw in C.
    assert (G : getkw "color" (hist_kw (List.length draws) (hist_bins r) kw0) = None).
    { unfold hist_kw. rewrite !(getkw_setdefault_neq "color") by discriminate. destruct (getkw "color" kw0); [discriminate C|reflexivity]. }
    rewrite G, repeat_length. apply Nat.eqb_neq. lia. }
  rewrite A. cbn [negb fst snd]. split; [reflexivity|]. intros x I. apply in_app_or in I. destruct I as [I|I].
  - cbn in I. destruct I as [I|[I|[]]]; subst x; [destruct (c_set_xlim c)|destruct (c_set_ylim c)]; exact I.
  - unfold hist_ticks in I. destruct (r_int r && _); [|contradiction]. cbn in I. destruct I as [I|[]]; subst x. exact I.
Qed.

(** The prior of a scalar parameter of a PyMC or Bambi model cannot be shown as a histogram. *)
Theorem C63_prior_histogram_refuted : forall sort kde n refs kw0 c d v observed i l,
  has "color" kw0 = false -> is_hist c = true -> d "prior" v = Some (i, Scalars l) -> (2 <= n)%nat ->
  let o := snd (redraw sort kde n refs false kw0 c (from_idata d "prior" (Some v) observed)) in snd o = Some ValueError /\ shows_no_sample o.
Proof.
  intros sort kde n refs kw0 c d v observed i l C K D N. unfold from_idata. rewrite D. cbn [String.eqb Ascii.eqb Bool.eqb]. cbn zeta.
  unfold redraw. unfold is_hist in K. apply String.eqb_eq in K. rewrite K, plot_hist_repr by (cbn; discriminate). cbn zeta. set (kw1 := setdefault "color" _ _).
  assert (A : hist_accepts 1 kw1 = false).
  { unfold hist_accepts, kw1. rewrite getkw_setdefault_same. rewrite has_getkw in C.
    unfold hist_kw. rewrite !(getkw_setdefault_neq "color") by discriminate. destruct (getkw "color" kw0); [discriminate C|].
    rewrite repeat_length. apply Nat.eqb_neq. lia. }
  cbn [r_rows List.length]. rewrite A. cbn [negb fst snd]. split; [reflexivity|]. intros x I. apply in_app_or in I. destruct I as [I|I].
  - cbn in I. destruct I as [I|[I|[]]]; subst x; [destruct (c_set_xlim c)|destruct (c_set_ylim c)]; exact I.
  - unfold hist_ticks in I. destruct (_ && _); [|contradiction]. cbn in I. destruct I as [I|[]]; subst x. exact I.
Qed.

(** Asked for the prior without a variable name, the explorer looks for the observed variable, not for the last free
    parameter as documented; the prior group has no such variable. *)
Theorem C63_prior_default_refuted : forall sort kde n refs custom kw0 c d observed,
  d "prior" observed = None -> snd (redraw sort kde n refs custom kw0 c (from_idata d "prior" None observed)) = ([], Some KeyError).
Proof. intros. unfold from_idata. rewrite H. reflexivity. Qed.

(** The dictionary that the user passed as stats_kwargs is changed. *)
Theorem C63_stats_kwargs_refuted : forall sort kde n refs kw0 c r, has "alpha" kw0 = false ->
  has "alpha" (fst (redraw sort kde n refs false kw0 c (Ok r))) = true.
Proof.
  intros sort kde n refs kw0 c r A. unfold redraw.
  assert (P : has "alpha" (fst (plot_repr sort kde r (c_kind c) refs n kw0)) = true).
  { rewrite has_getkw. unfold plot_repr. set (kwa := setdefault "alpha" _ _).
    assert (G : getkw "alpha" kwa = Some (VNum (alpha n))).
    { unfold kwa. rewrite getkw_setdefault_same. rewrite has_getkw in A. destruct (getkw "alpha" kw0); [discriminate A|reflexivity]. }
    clearbody kwa.
    destruct (String.eqb (c_kind c) "hist"); [|destruct (String.eqb (c_kind c) "kde"); [|destruct (String.eqb (c_kind c) "ecdf")]].
    - unfold plot_hist. destruct (r_rows r); [cbn [fst]; now rewrite G|]. destruct (negb _); cbn [fst].
      + erewrite getkw_setdefault_some; [reflexivity|]. repeat apply getkw_setdefault_some. exact G.
      + rewrite !getkw_pop_neq by discriminate. erewrite getkw_setdefault_some; [reflexivity|]. repeat apply getkw_setdefault_some. exact G.
    - unfold plot_kdes. destruct (r_rows r); [|destruct (negb _)]; cbn [fst]; (erewrite getkw_setdefault_some; [reflexivity|exact G]).
    - unfold plot_ecdfs. destruct (r_rows r); [|destruct (negb _)]; cbn [fst]; (erewrite getkw_setdefault_some; [reflexivity|exact G]).
    - cbn [fst]. now rewrite G. }
  destruct (plot_repr sort kde r (c_kind c) refs n kw0) as [kw' out]. exact P.
Qed.

(** The lines of the samples are the more transparent the more there are, down to one part in a hundred, unless the user chose: the transparency 0.991,
    0.982, ... for one, two, ... samples, and 0.01 from 110 on. *)
Definition opacity (n : nat) (a : R) : Prop := ((n <= 110)%nat -> a = 1 - 9 * INR n / 1000) /\ ((110 <= n)%nat -> a = 1 / 100).
Lemma opacity_alpha n : opacity n (alpha n).
Proof.
  unfold opacity, alpha. split; intro H; apply le_INR in H; replace (INR 110) with 110 in H by (rewrite INR_IZR_INZ; reflexivity).
  - rewrite Rmax_right; lra.
  - rewrite Rmax_left; lra.
Qed.
Lemma getkw_app k a b : getkw k (a ++ b) = match getkw k a with Some v => Some v | None => getkw k b end.
Proof. induction a as [|[k' v] a IH]; [reflexivity|]. cbn. destruct (String.eqb k' k); [reflexivity|exact IH]. Qed.
Theorem C63_transparency : forall sort kde n refs kw0 c r calls e x kw,
  snd (redraw sort kde n refs false kw0 c (Ok r)) = (calls, e) -> In x calls ->
  (exists d, x = Hist d kw) \/ (exists d, x = PooledHist d kw) \/ (exists xs ys, x = Curve xs ys (Styled kw)) ->
  match getkw "alpha" kw0 with
  | Some v => getkw "alpha" kw = Some v
  | None => exists a, getkw "alpha" kw = Some (VNum a) /\ opacity n a
  end.
Proof.
  intros sort kde n refs kw0 c r calls e x kw E I K. unfold redraw in E.
  set (kwa := setdefault "alpha" (VNum (alpha n)) kw0).
  assert (G : exists v, getkw "alpha" kwa = Some v /\ match getkw "alpha" kw0 with Some v' => v = v' | None => exists a, v = VNum a /\ opacity n a end).
  { unfold kwa. rewrite getkw_setdefault_same. destruct (getkw "alpha" kw0); eexists; (split; [reflexivity|]); [reflexivity|].
    exists (alpha n). split; [reflexivity|apply opacity_alpha]. }
  destruct G as (v & G & V).
  enough (Q : getkw "alpha" kw = Some v) by (rewrite Q; destruct (getkw "alpha" kw0); [congruence | destruct V as (a & -> & O); eauto]). clear V.
  assert (P : In x (fst (snd (plot_repr sort kde r (c_kind c) refs n kw0)))).
  { destruct (plot_repr sort kde r (c_kind c) refs n kw0) as [kw' out]. cbn [fst snd] in *. injection E as E _. rewrite <- E in I.
    cbn [app In] in I. destruct I as [<-|[<-|I]]; [exfalso; destruct (c_set_xlim c)|exfalso; destruct (c_set_ylim c)|exact I]; decompose [or ex] K; discriminate. }
  clear E I. assert (NR : forall rs, ~ In x (plot_references rs)).
  { intros rs I. destruct rs as [|y|l|l]; cbn in I.
    - contradiction.
    - destruct I as [<-|[]]. decompose [or ex] K; discriminate.
    - apply in_map_iff in I as (y & <- & _). decompose [or ex] K; discriminate.
    - apply in_flat_map in I as ([s y] & _ & I). cbn in I. destruct I as [<-|[<-|[]]]; decompose [or ex] K; discriminate. }
  unfold plot_repr in P. fold kwa in P. clearbody kwa.
  assert (NT : ~ In x (hist_ticks r)).
  { unfold hist_ticks. destruct (_ && _); [|intros []]. intros [<-|[]]. decompose [or ex] K; discriminate. }
  destruct (String.eqb (c_kind c) "hist"); [|destruct (String.eqb (c_kind c) "kde"); [|destruct (String.eqb (c_kind c) "ecdf")]].
  - unfold plot_hist in P. destruct (r_rows r) as [|row0 rows]; [contradiction|]. set (kw1 := setdefault "color" _ _) in P.
    assert (G1 : getkw "alpha" kw1 = Some v) by (unfold kw1; repeat apply getkw_setdefault_some; exact G). clearbody kw1.
    destruct (negb _); cbn [fst snd] in P; [contradiction|]. apply in_app_or in P as [P|P]; [contradiction|]. cbn [app In] in P.
    destruct P as [<-|[<-|P]]; [| |exfalso; exact (NR refs P)].
    + decompose [or ex] K; try discriminate. congruence.
    + assert (kw = pop "ls" (pop "color" kw1) ++ [("color", VStr "k"); ("ls", VStr "--")]) as -> by (decompose [or ex] K; try discriminate; congruence).
      rewrite getkw_app, !getkw_pop_neq by discriminate. rewrite G1. reflexivity.
  - unfold plot_kdes in P. destruct (r_rows r) as [|row0 rows]; [contradiction|]. destruct (negb _); [contradiction|]. cbn [fst snd] in P.
    apply in_app_or in P as [P|P].
    + apply in_map_iff in P as (row & <- & _). decompose [or ex] K; try discriminate. match goal with H : Curve _ _ _ = _ |- _ => injection H as _ _ <- end.
      apply getkw_setdefault_some. exact G.
    + cbn [app In] in P. destruct P as [<-|P]; [decompose [or ex] K; discriminate | exfalso; exact (NR refs P)].
  - unfold plot_ecdfs in P. destruct (r_rows r) as [|row0 rows]; [contradiction|]. destruct (negb _); [contradiction|]. cbn [fst snd] in P.
    apply in_app_or in P as [P|P].
    + apply in_map_iff in P as (row & <- & _). decompose [or ex] K; try discriminate. match goal with H : Curve _ _ _ = _ |- _ => injection H as _ _ <- end.
      apply getkw_setdefault_some. exact G.
    + cbn [app In] in P. destruct P as [<-|P]; [decompose [or ex] K; discriminate | exfalso; exact (NR refs P)].
  - exfalso. exact (NR refs P).
Qed.
(** The marks on the axis of a histogram of integers are the whole numbers from the least value to one above the greatest, if there are fewer than
    thirty; otherwise, and for values that are not integers, they are left to matplotlib. *)
Theorem C63_ticks : forall sort kde n refs kw0 c r calls e,
  is_hist c = true -> integers (r_rows r) -> (exists row x, In row (r_rows r) /\ In x row) ->
  snd (redraw sort kde n refs false kw0 c (Ok r)) = (calls, e) ->
  exists m M, (exists row, In row (r_rows r) /\ In (IZR m) row) /\ (exists row, In row (r_rows r) /\ In (IZR M) row) /\
    (forall row x, In row (r_rows r) -> In x row -> IZR m <= x <= IZR M) /\
    (r_int r = true -> (M + 1 - m + 1 < 30)%Z -> exists ticks, In (XTicks ticks) calls /\ forall x, In x ticks <-> exists z, (m <= z <= M + 1)%Z /\ x = IZR z) /\
    (r_int r = false \/ (30 <= M + 1 - m + 1)%Z -> forall ticks, ~ In (XTicks ticks) calls).
Proof.
  intros sort kde n refs kw0 c r calls e K Hi (row1 & x1 & I1 & J1) E.
  assert (Ex : exists x, In x (List.concat (r_rows r))) by (exists x1; apply in_concat; eauto).
  destruct (integer_bins_spec _ Hi Ex) as (m & M & Em & EM & LE & Ln & Nt). exists m, M.
  destruct Ex as (x0 & Ix). destruct (np_min_spec _ _ Ix) as [Lm Im]. destruct (np_max_spec _ _ Ix) as [LM IM].
  rewrite Em in *. rewrite EM in *.
  split; [apply in_concat in Im as (row & A & B); eauto|]. split; [apply in_concat in IM as (row & A & B); eauto|].
  split; [intros row x A B; assert (C : In x (List.concat (r_rows r))) by (apply in_concat; eauto);
    rewrite <- Em, <- EM; split; [exact (proj1 (np_min_spec _ _ C)) | exact (proj1 (np_max_spec _ _ C))]|].
  unfold redraw in E. unfold is_hist in K. apply String.eqb_eq in K. rewrite K in E. rewrite plot_hist_repr in E by (intro Q; rewrite Q in I1; contradiction).
  cbn zeta in E. set (kw1 := setdefault "color" _ _) in *.
  assert (T : forall ticks, In (XTicks ticks) calls <-> In (XTicks ticks) (hist_ticks r)).
  { intro ticks. destruct (negb (hist_accepts (List.length (r_rows r)) kw1)); apply (f_equal fst) in E; cbn [fst snd] in E; rewrite <- E.
    - rewrite in_app_iff. split; [|auto]. intros [I|I]; [exfalso|exact I]. cbn in I. destruct I as [I|[I|[]]]; [destruct (c_set_xlim c)|destruct (c_set_ylim c)]; discriminate.
    - rewrite !in_app_iff. split; [|auto]. intros [I|[I|I]]; [exfalso|exact I|exfalso].
      + cbn in I. destruct I as [I|[I|[]]]; [destruct (c_set_xlim c)|destruct (c_set_ylim c)]; discriminate.
      + destruct I as [I|I]; [cbn in I; destruct I as [I|[I|[]]]; discriminate|].
        destruct refs as [|y|l|l]; cbn in I.
        * contradiction.
        * destruct I as [I|[]]; discriminate.
        * apply in_map_iff in I as (y & I & _); discriminate.
        * apply in_flat_map in I as ([s y] & _ & I). cbn in I. destruct I as [I|[I|[]]]; discriminate. }
  unfold hist_ticks in T. rewrite Ln in T. split.
  - intros I B. rewrite I in T. cbn [andb] in T. replace (Z.to_nat (M - m + 2) <? 30)%nat with true in T by (symmetry; apply Nat.ltb_lt; lia).
    eexists. split; [apply T; left; reflexivity|]. intro x. rewrite in_map_iff. split.
    + intros (b & <- & Ib). destruct (In_nth _ _ 0 Ib) as (i & Li & <-). rewrite Ln in Li. rewrite Nt by exact Li.
      exists (m + Z.of_nat i)%Z. split; [lia|]. rewrite plus_IZR, <- INR_IZR_INZ. lra.
    + intros (z & Bz & ->). exists (nth (Z.to_nat (z - m)) (integer_bins (r_rows r)) 0). split; [|apply nth_In; rewrite Ln; lia].
      rewrite Nt by lia. rewrite INR_IZR_INZ, Z2Nat.id by lia. rewrite minus_IZR. lra.
  - intros B ticks I. apply T in I. destruct (r_int r); [|contradiction]. cbn [andb] in I.
    replace (Z.to_nat (M - m + 2) <? 30)%nat with false in I by (symmetry; apply Nat.ltb_ge; destruct B as [B|B]; [discriminate|lia]). contradiction.
Qed.
(** Five draws of counts from 2 to 4. *)
Example C63_ticks_case : let r := {| r_int := true; r_rows := [[2; 4]; [3; 2]] |} in
  integers (r_rows r) /\ (exists row x, In row (r_rows r) /\ In x row).
Proof.
  cbn. split; [|exists [2; 4], 2; cbn; auto].
  intros row x I J. cbn in I. destruct I as [<-|[<-|[]]]; cbn in J; destruct J as [<-|[<-|[]]]; eexists; reflexivity.
Qed.

(** ** Non-vacuity *)
Definition panel (kind : string) : controls :=
  {| c_set_xlim := true; c_x_min := -3; c_x_max := 3; c_set_ylim := false; c_y_min := -10; c_y_max := 10; c_kind := kind |}.
Definition three_draws : list draw :=
  [ {| d_int := false; d_vals := [Some 2; Some 1] |}; {| d_int := false; d_vals := [None; Some 3] |}; {| d_int := false; d_vals := [Some 5; Some 4] |} ].
Example three_draws_collected : collect three_draws = Ok {| r_int := false; r_rows := [[2; 1]; [5; 4]] |}.
Proof. reflexivity. Qed.
Example three_draws_ecdf :
  exists calls kept cs pooled,
    snd (redraw GeoProps.isort (fun l => (l, l)) 3 (One 0) false [] (panel "ecdf") (collect three_draws)) = (calls, None) /\
    (forall d, In d kept <-> In d three_draws /\ clean d) /\
    Forall2 sample_of kept [[2; 1]; [5; 4]] /\ curves calls = cs ++ [pooled] /\
    Forall2 (fun row xy => empirical row (fst xy) (snd xy)) [[2; 1]; [5; 4]] cs /\
    empirical [2; 1; 5; 4] (fst pooled) (snd pooled).
Proof.
  apply (C63_ecdf_shows_clean_draws GeoProps.isort (fun l => (l, l)) 3 (One 0) [] three_draws (panel "ecdf")
           {| r_int := false; r_rows := [[2; 1]; [5; 4]] |}); try reflexivity.
  - exact GeoProps.isort_sorts.
  - exists {| d_int := false; d_vals := [Some 2; Some 1] |}. split; [now left|]. intros [E|[E|[]]]; discriminate E.
Qed.
Example three_draws_kde_hypotheses :
  plot_accepts [("alpha", VNum (1 / 2))] = true /\ (exists r, collect three_draws = Ok r) /\ (exists d, In d three_draws /\ clean d)
  /\ exists d, In d three_draws /\ ~ clean d.
Proof.
  split; [reflexivity|split; [eexists; reflexivity|split]].
  - exists {| d_int := false; d_vals := [Some 2; Some 1] |}. split; [now left|]. intros [E|[E|[]]]; discriminate E.
  - exists {| d_int := false; d_vals := [None; Some 3] |}. split; [right; now left|]. intro H. apply H. now left.
Qed.
(** A session in which the histogram of counts is followed by one of larger counts: the second draws nothing. *)
Definition counts1 : results := {| r_int := true; r_rows := [[0; 1]; [1; 2]] |}.
Definition counts2 : results := {| r_int := true; r_rows := [[7; 9]; [8; 8]] |}.
Example counts_stale :
  exists kw edges calls,
    nth_redraw (snd (session GeoProps.isort (fun l => (l, l)) 2 NoRefs false [] [(panel "hist", Ok counts1); (panel "hist", Ok counts2)])) 1 = Some (calls, None)
    /\ In (Hist (r_rows counts2) kw) calls /\ getkw "bins" kw = Some (VBins edges) /\
    forall row x i, In row (r_rows counts2) -> In x row -> ~ in_bin edges i x.
Proof.
  assert (E : exists calls, nth_redraw (snd (session GeoProps.isort (fun l => (l, l)) 2 NoRefs false []
            [(panel "hist", Ok counts1); (panel "hist", Ok counts2)])) 1 = Some (calls, None)) by (eexists; reflexivity).
  destruct E as [calls E].
  destruct (C63_stale_bins_refuted GeoProps.isort (fun l => (l, l)) 2 NoRefs [] (panel "hist") counts1 [] (panel "hist") counts2 [] calls)
    as [kw [edges [A [B C]]]]; try reflexivity; try exact E.
  - intros row x I J. cbn in I. destruct I as [I|[I|[]]]; subst row; cbn in J.
    + destruct J as [J|[J|[]]]; subst x; [now exists 0%Z|now exists 1%Z].
    + destruct J as [J|[J|[]]]; subst x; [now exists 1%Z|now exists 2%Z].
  - exists 0. now left.
  - intros x y I J. cbn in I, J. destruct I as [I|[I|[I|[I|[]]]]], J as [J|[J|[J|[J|[]]]]]; subst; lra.
  - exists kw, edges, calls. auto.
Qed.
Example counts_bins :
  exists kw edges, getkw "bins" kw = Some (VBins edges) /\ (forall row x, In row (r_rows counts1) -> In x row -> exists! i, in_bin edges i x).
Proof.
  destruct (C63_integer_bins GeoProps.isort (fun l => (l, l)) 2 NoRefs [] (panel "hist") counts1
    (fst (snd (redraw GeoProps.isort (fun l => (l, l)) 2 NoRefs false [] (panel "hist") (Ok counts1)))))
    as [kw [edges [A [B [C D]]]]]; try reflexivity.
  - intros row x I J. cbn in I. destruct I as [I|[I|[]]]; subst row; cbn in J.
    + destruct J as [J|[J|[]]]; subst x; [now exists 0%Z|now exists 1%Z].
    + destruct J as [J|[J|[]]]; subst x; [now exists 1%Z|now exists 2%Z].
  - exists kw, edges. auto.
Qed.
(** Three redraws without a histogram, and what a session of histograms of reals needs. *)
Definition reals1 : results := {| r_int := false; r_rows := [[0; 1]; [3; 2]] |}.
Example line_session : forall c data, In (c, data) [(panel "kde", Ok counts1); (panel "ecdf", Ok counts2); (panel "kde", Err ValueError)] ->
  offered c /\ is_hist c = false.
Proof. intros c data [E|[E|[E|[]]]]; inversion E; subst; (split; [cbn; auto|reflexivity]). Qed.
Example hist_session : has "color" [("alpha", VNum 1)] = false /\ has "ls" [("alpha", VNum 1)] = false /\
  forall c data, In (c, data) [(panel "hist", Ok reals1); (panel "hist", Ok reals1)] ->
    is_hist c = true /\ (has "bins" [("alpha", VNum 1)] = true \/ forall r, data = Ok r -> r_int r = false).
Proof.
  split; [reflexivity|split; [reflexivity|]]. intros c data [E|[E|[]]]; inversion E; subst; (split; [reflexivity|right; intros r Er; inversion Er; reflexivity]).
Qed.
(** The user switches from the default empirical distribution to a histogram: nothing is drawn from then on. *)
Example default_then_histogram :
  exists o1 os, snd (session GeoProps.isort (fun l => (l, l)) 2 NoRefs false []
      [(panel "ecdf", Ok reals1); (panel "hist", Ok reals1); (panel "ecdf", Ok reals1)]) = o1 :: os
    /\ snd o1 = None /\ Forall (fun o => failed o /\ shows_no_sample o) os.
Proof.
  destruct (C63_histogram_after_line_refuted GeoProps.isort (fun l => (l, l)) 2 NoRefs [] (panel "ecdf") reals1 (panel "hist") reals1 [(panel "ecdf", Ok reals1)])
    as [o1 [os [E [L F]]]]; try reflexivity; try (cbn; auto).
  - intros c data [I|[]]. inversion I; subst. split; [cbn; auto|]. exists reals1. split; [reflexivity|cbn; auto].
  - exists o1, os. split; [exact E|split; [|exact F]]. assert (E1 := f_equal (fun l => snd (hd ([], None) l)) E). cbn [hd] in E1. rewrite <- E1. reflexivity.
Qed.

Print Assumptions C63_lines_ignore_history.
Print Assumptions C63_float_histograms_ignore_history.
Print Assumptions C63_custom_ignores_history.
Print Assumptions C63_ecdf_shows_clean_draws.
Print Assumptions C63_kde_shows_clean_draws.
Print Assumptions C63_ecdf_top_refuted.
Print Assumptions C63_references.
Print Assumptions C63_limits.
Print Assumptions C63_integer_bins.
Print Assumptions C63_line_after_histogram_refuted.
Print Assumptions C63_histogram_after_line_refuted.
Print Assumptions C63_stale_bins_refuted.
Print Assumptions C63_user_style_refuted.
Print Assumptions C63_nan_histogram_refuted.
Print Assumptions C63_prior_histogram_refuted.
Print Assumptions C63_prior_default_refuted.
Print Assumptions C63_stats_kwargs_refuted.
Print Assumptions C63_collected.
Print Assumptions C63_transparency.
Print Assumptions C63_ticks.
