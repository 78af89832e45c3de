(** Property theorems for the roulette grid: C36, C37. *)
From Coq Require Import List Bool ZArith QArith Qround Reals Lra Lia.
From Verif Require Import Base RLists RouletteModel RouletteSpec RouletteProofs.
Import ListNotations.
Open Scope Z_scope.

(* ---------------- C36 ---------------- *)
(** After any history of clicks and resizes, the picture agrees with the stored heights. *)
Theorem C36_picture_agrees :
  forall nr nc history, picture_agrees (run (new_grid nr nc) history).
Proof. intros. apply run_ok, new_grid_ok. Qed.

(** Heights never exceed the number of rows, and never drop below -1. *)
Theorem C36_heights_bounded :
  forall nr nc history c,
    let g := run (new_grid nr nc) history in
    -1 <= weights g c <= Z.max 0 (nrows g).
Proof. intros. apply run_ok, new_grid_ok. Qed.

(** If every click is above the base line, heights are non-negative. *)
Theorem C36_heights_nonnegative :
  forall nr nc history c,
    Forall above_base history -> 0 <= weights (run (new_grid nr nc) history) c.
Proof. intros. apply run_nonneg; [assumption|]. intro; simpl; lia. Qed.

(** Clicking an empty cell fills its column up to and including it; clicking a filled cell empties it and
    everything above it; all other columns keep their height. *)
Theorem C36_click_effect :
  forall g x y r c,
    on_cell x y r c -> in_grid g r c ->
    (weights g c <= r -> weights (click g true x y) c = r + 1) /\
    (r < weights g c -> weights (click g true x y) c = r) /\
    (forall k, k <> c -> weights (click g true x y) k = weights g k).
Proof.
  intros g x y r c H1 H2. pose proof (click_on_cell g x y r c H1 H2) as H. repeat split.
  - intro Hr. rewrite H, Z.eqb_refl. destruct (Z.ltb_spec r (weights g c)); lia.
  - intro Hr. rewrite H, Z.eqb_refl. destruct (Z.ltb_spec r (weights g c)); lia.
  - intros k N. rewrite H. destruct (Z.eqb_spec k c); [contradiction|reflexivity].
Qed.

(** Clicks outside the axes, or outside the columns, or above the grid, do nothing. *)
Theorem C36_outside_clicks_ignored :
  forall g x y inaxes,
    inaxes = false \/ (x < 0)%Q \/ (inject_Z (ncols g) <= x)%Q \/
    (inject_Z (nrows g) < y)%Q \/ (y <= -1 # 1)%Q ->
    click g inaxes x y = g.
Proof.
  intros g x y i H. unfold click. destruct i; [|reflexivity].
  destruct (_ && _ && _ && _)%bool eqn:G; [|reflexivity]. exfalso.
  apply guard_spec in G. destruct G as [[G1 G2] [G3 G4]].
  destruct H as [H|[H|[H|[H|H]]]].
  - discriminate.
  - assert (inject_Z (Qfloor x) < inject_Z 0)%Q by (eapply Qle_lt_trans; [apply Qfloor_le|exact H]).
    rewrite <- Zlt_Qlt in H0. lia.
  - pose proof (Qlt_floor x) as L. assert (inject_Z (ncols g) < inject_Z (Qfloor x + 1))%Q
      by (eapply Qle_lt_trans; eauto). rewrite <- Zlt_Qlt in H0. lia.
  - assert (inject_Z (nrows g) < inject_Z (Qceiling y))%Q by (eapply Qlt_le_trans; [exact H|apply Qle_ceiling]).
    rewrite <- Zlt_Qlt in H0. lia.
  - pose proof (Qceiling_lt y) as L.
    assert (inject_Z (Qceiling y - 1) < inject_Z (-1))%Q by (eapply Qlt_le_trans; [exact L|exact H]).
    rewrite <- Zlt_Qlt in H0. lia.
Qed.

Example C36_example :
  let g := run (new_grid 5 3) [Click true (1 # 2) (7 # 2); Click true (3 # 2) 2; Click true (1 # 2) (5 # 2)] in
  weights g 0 = 2 /\ weights g 1 = 2 /\ weights g 2 = 0 /\
  coll g 1 0 = true /\ coll g 2 0 = false /\
  on_cell (1 # 2) (7 # 2) 3 0 /\ in_grid g 3 0.
Proof. repeat split; vm_compute; try reflexivity; discriminate. Qed.

(** Finding: a click inside the axes just below the grid stores a negative number of chips. *)
Theorem C36_negative_chips_refuted :
  exists history, weights (run (new_grid 10 10) history) 0 = -1.
Proof. exists [Click true (1 # 2) (-1 # 4)]. vm_compute. reflexivity. Qed.

Print Assumptions C36_picture_agrees.
Print Assumptions C36_click_effect.

(* ---------------- C37 ---------------- *)
Open Scope R_scope.

(** With at least one chip and no negative heights, the elicited pdf is a probability vector aligned with its
    x values, each filled column contributes chips/total, the x values increase, mean and std are those of
    the elicited discrete distribution and the mean lies within the x values' range. *)
Theorem C37_elicited_pdf :
  forall g x_min x_max,
    (2 <= ncols g)%Z -> x_min < x_max ->
    (forall c, (0 <= weights g c)%Z) -> (exists c, (0 <= c < ncols g)%Z /\ (0 < weights g c)%Z) ->
    exists r, weights_to_pdf g x_min x_max = Ok r /\
      probability_vector (epdf r) /\
      length (x_vals r) = length (epdf r) /\
      increasing (x_vals r) /\
      Forall (fun x => x_min < x < x_max + (x_max - x_min) / IZR (ncols g - 1)) (x_vals r) /\
      (forall x p, In (x, p) (combine (x_vals r) (epdf r)) <->
         exists c, (0 <= c < ncols g)%Z /\ (0 < weights g c)%Z /\
           x = x_min + (IZR c + 1/2) * ((x_max - x_min) / IZR (ncols g - 1)) /\
           p = IZR (weights g c) / Rsum (map (fun k => IZR (weights g k)) (range0 (ncols g)))) /\
      mean r = Rsum (map (fun xp => fst xp * snd xp) (combine (x_vals r) (epdf r))) /\
      (std r)^2 = Rsum (map (fun xp => (fst xp - mean r)^2 * snd xp) (combine (x_vals r) (epdf r))) /\
      0 <= std r /\
      x_min < mean r < x_max + (x_max - x_min) / IZR (ncols g - 1).
Proof.
  intros g x_min x_max Hn Hx H0 Hp. rewrite (weights_to_pdf_ok g x_min x_max Hn H0 Hp).
  eexists; split; [reflexivity|]. cbn [x_vals epdf mean std filled].
  set (step := (x_max - x_min) / IZR (ncols g - 1)).
  pose proof (total_pos g H0 Hp) as Ht. assert (Htr : 0 < IZR (total_of g)) by (apply IZR_lt; exact Ht).
  assert (Hstep : 0 < step).
  { apply Rdiv_lt_0_compat; [lra|]. apply IZR_lt; lia. }
  assert (Hcell : forall kv, In kv (items_of g) ->
            x_min < (IZR (fst kv) + 1/2) * step + x_min < x_max + step).
  { intros kv Hin. apply items_In in Hin. destruct Hin as [[K1 K2] _].
    assert (0 <= IZR (fst kv)) by (apply IZR_le; lia).
    assert (IZR (fst kv) <= IZR (ncols g - 1)) by (apply IZR_le; lia).
    assert (E : IZR (ncols g - 1) * step = x_max - x_min).
    { unfold step. field. apply not_0_IZR. lia. }
    split; [nra|].
    assert (IZR (fst kv) * step <= IZR (ncols g - 1) * step) by (apply Rmult_le_compat_r; lra).
    nra. }
  assert (Hsum : Rsum (map (fun kv => IZR (snd kv) / IZR (total_of g)) (items_of g)) = 1).
  { rewrite Rsum_map_div, total_items. field. lra. }
  assert (Hnn : forall kv, In kv (items_of g) -> 0 <= IZR (snd kv) / IZR (total_of g)).
  { intros kv Hin. pose proof (items_nonneg g kv H0 Hin).
    apply Rlt_le, Rdiv_lt_0_compat; [|exact Htr]. apply IZR_lt; lia. }
  assert (Hex : exists kv0, In kv0 (items_of g)).
  { destruct (items_of g) as [|kv0 rest]; [unfold Rsum in Hsum; simpl in Hsum; lra|].
    exists kv0; left; reflexivity. }
  destruct Hex as [kv0 Hin0].
    (* strict bounds: subtract the bound and use positivity of the weights *)
    assert (A : forall (f : Z * Z -> R), (forall kv, In kv (items_of g) -> 0 < f kv) ->
              0 < Rsum (map (fun kv => IZR (snd kv) / IZR (total_of g) * f kv) (items_of g))).
    { intros f Hf.
      destruct (Rle_lt_or_eq_dec 0 (Rsum (map (fun kv => IZR (snd kv) / IZR (total_of g) * f kv) (items_of g))))
        as [L|Eq]; [|exact L|].
      - apply Rsum_map_nonneg. intros kv Hin. apply Rmult_le_pos; [auto|]. specialize (Hf kv Hin); lra.
      - exfalso. symmetry in Eq.
        pose proof Hin0 as Hin.
        pose proof (Rsum_zero_all _ _ (fun kv (Hi : In kv (items_of g)) =>
           Rmult_le_pos _ _ (Hnn kv Hi) (Rlt_le _ _ (Hf kv Hi))) Eq kv0 Hin) as Z. simpl in Z.
        pose proof (items_nonneg g kv0 H0 Hin). specialize (Hf kv0 Hin).
        assert (0 < IZR (snd kv0) / IZR (total_of g)) by (apply Rdiv_lt_0_compat; [apply IZR_lt; lia|exact Htr]).
        nra. }
  unfold probability_vector. rewrite !combine_map2, !map_map. cbn [fst snd].
  repeat match goal with |- _ /\ _ => split end.
  - apply Forall_forall. intros p Hin. apply in_map_iff in Hin. destruct Hin as [kv [<- Hin]]. auto.
  - exact Hsum.
  - rewrite !map_length. reflexivity.
  - apply increasing_map; [|apply items_inc]. intros a b Hab.
    apply IZR_lt in Hab. nra.
  - apply Forall_forall. intros x Hin. apply in_map_iff in Hin. destruct Hin as [kv [<- Hin]].
    apply Hcell; exact Hin.
  - intros x p. rewrite in_map_iff. 
    assert (Etot : IZR (total_of g) = Rsum (map (fun k => IZR (weights g k)) (range0 (ncols g)))).
    { unfold total_of, weight_items. rewrite map_map. simpl. rewrite <- Rsum_IZR, map_map. reflexivity. }
    rewrite <- Etot. split.
    + intros [[k v] [E Hin]]. simpl in E. injection E as <- <-. apply items_In in Hin. simpl in Hin.
      destruct Hin as [Hk [-> Hz]]. exists k. specialize (H0 k).
      repeat split; try lia. lra.
    + intros [c [Hc [Hw [-> ->]]]]. exists (c, weights g c). simpl. split; [f_equal; lra|].
      apply items_In. simpl. repeat split; lia.
  - apply Rsum_map_ext. intros; simpl; lra.
  - rewrite <- Rsqr_pow2, Rsqr_sqrt.
    + apply Rsum_map_ext. intros; simpl; ring.
    + apply Rsum_map_nonneg. intros kv Hin. simpl. specialize (Hnn kv Hin).
      apply Rmult_le_pos; [exact Hnn|]. set (z := _ - _). pose proof (Rle_0_sqr z). unfold Rsqr in *. lra.
  - apply sqrt_pos.
  - specialize (A (fun kv => (IZR (fst kv) + 1/2) * step + x_min - x_min)).
      assert (0 < Rsum (map (fun kv => IZR (snd kv) / IZR (total_of g) *
                 ((IZR (fst kv) + 1/2) * step + x_min - x_min)) (items_of g))) as P.
      { apply A. intros kv Hin. specialize (Hcell kv Hin). lra. }
      rewrite (Rsum_map_ext _ (fun kv => IZR (snd kv) / IZR (total_of g) * ((IZR (fst kv) + 1/2) * step + x_min)
                 - x_min * (IZR (snd kv) / IZR (total_of g)))) in P by (intros; ring).
      rewrite Rsum_map_minus, Rsum_map_scal, Hsum in P. lra.
  - specialize (A (fun kv => x_max + step - ((IZR (fst kv) + 1/2) * step + x_min))).
      assert (0 < Rsum (map (fun kv => IZR (snd kv) / IZR (total_of g) *
                 (x_max + step - ((IZR (fst kv) + 1/2) * step + x_min))) (items_of g))) as P.
      { apply A. intros kv Hin. specialize (Hcell kv Hin). lra. }
      rewrite (Rsum_map_ext _ (fun kv => (x_max + step) * (IZR (snd kv) / IZR (total_of g))
                 - IZR (snd kv) / IZR (total_of g) * ((IZR (fst kv) + 1/2) * step + x_min))) in P by (intros; ring).
      rewrite Rsum_map_minus, Rsum_map_scal, Hsum in P. lra.
Qed.

(** With no chips at all the result is empty (and no exception is raised). *)
Theorem C37_no_chips :
  forall g x_min x_max,
    (2 <= ncols g)%Z -> (forall c, (0 <= c < ncols g)%Z -> weights g c = 0%Z) ->
    exists r, weights_to_pdf g x_min x_max = Ok r /\ x_vals r = [] /\ epdf r = [] /\ filled r = 0%nat.
Proof.
  intros g x_min x_max Hn H0.
  assert (E : items_of g = []).
  { destruct (items_of g) as [|kv l] eqn:E; [reflexivity|]. exfalso.
    assert (Hin : In kv (items_of g)) by (rewrite E; left; reflexivity).
    apply items_In in Hin. destruct Hin as [Hk [Hv Hz]]. rewrite H0 in Hv by exact Hk. contradiction. }
  unfold weights_to_pdf. destruct (Z.eqb_spec (ncols g - 1) 0); [lia|].
  fold (items_of g). rewrite E. simpl. rewrite andb_false_r.
  eexists; split; [reflexivity|]. repeat split.
Qed.

(** Finding: the x value of a column is half a step to the right of the label printed under the column; for
    the last column it is beyond x_max. *)
Theorem C37_x_values_are_shifted_refuted :
  forall g x_min x_max c,
    (2 <= ncols g)%Z -> x_min < x_max ->
    (forall c, (0 <= weights g c)%Z) -> (0 <= c < ncols g)%Z -> (0 < weights g c)%Z ->
    exists r x, weights_to_pdf g x_min x_max = Ok r /\ In x (x_vals r) /\
      column_label g x_min x_max c < x /\
      (c = (ncols g - 1)%Z -> column_label g x_min x_max c = x_max /\ x_max < x).
Proof.
  intros g x_min x_max c Hn Hx H0 Hc Hw.
  rewrite (weights_to_pdf_ok g x_min x_max Hn H0 (ex_intro _ c (conj Hc Hw))).
  eexists. exists ((IZR c + 1/2) * ((x_max - x_min) / IZR (ncols g - 1)) + x_min).
  split; [reflexivity|]. simpl.
  assert (Hstep : 0 < (x_max - x_min) / IZR (ncols g - 1)).
  { apply Rdiv_lt_0_compat; [lra|]. apply IZR_lt; lia. }
  split; [|split].
  - apply in_map_iff. exists (c, weights g c). split; [reflexivity|]. apply items_In; simpl.
    repeat split; lia.
  - unfold column_label. lra.
  - intros ->. assert (E : column_label g x_min x_max (ncols g - 1) = x_max).
    { unfold column_label. field. apply not_0_IZR. lia. }
    split; [exact E|]. rewrite <- E at 1. unfold column_label. lra.
Qed.

(** Finding: a stray click below the axis can make the elicited "probabilities" negative and larger than 1. *)
Theorem C37_negative_probability_refuted :
  exists history r,
    weights_to_pdf (run (new_grid 10 3) history) 0 1 = Ok r /\
    exists p q, In p (epdf r) /\ p < 0 /\ In q (epdf r) /\ 1 < q.
Proof.
  exists [Click true (1 # 2) (-1 # 4); Click true (3 # 2) 3].
  eexists. split; [reflexivity|]. simpl. exists (-1/2), (3/2). 
  split; [left; reflexivity|]. split; [lra|]. split; [right; left; reflexivity|lra].
Qed.

(** The observer on x_min keeps the two limits different. *)
Theorem C37_limits_differ : forall a b, fst (on_x_min_change a b) <> snd (on_x_min_change a b).
Proof. intros a b. unfold on_x_min_change. destruct (Req_EM_T a b); simpl; lra. Qed.

Example C37_example :
  let g := run (new_grid 10 3) [Click true (1 # 2) 3; Click true (3 # 2) 1] in
  (2 <= ncols g)%Z /\ weights g 0 = 3%Z /\ weights g 1 = 1%Z /\ weights g 2 = 0%Z /\
  exists r, weights_to_pdf g 0 1 = Ok r /\ length (x_vals r) = 2%nat /\ In (3/4) (epdf r).
Proof.
  repeat split; try (vm_compute; try reflexivity; discriminate).
  eexists. split; [reflexivity|]. split; [reflexivity|]. simpl. left; reflexivity.
Qed.

Print Assumptions C37_elicited_pdf.
