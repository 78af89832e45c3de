From Coq Require Import List Bool ZArith QArith Qround Reals Lra Lia.
From Verif Require Import Base RLists RouletteModel RouletteSpec.
Import ListNotations.
Open Scope Z_scope.

Lemma set_weight_same w c v : set_weight w c v c = v.
Proof. unfold set_weight. rewrite Z.eqb_refl. reflexivity. Qed.
Lemma set_weight_other w c v k : k <> c -> set_weight w c v k = w k.
Proof. unfold set_weight. intro H. destruct (Z.eqb_spec k c); [contradiction|reflexivity]. Qed.

Definition height_ok (g : grid) : Prop := forall c, -1 <= weights g c <= Z.max 0 (nrows g).

Lemma guard_spec a b c d :
  ((0 <=? a) && (a <? b) && (0 <=? c) && (c <=? d))%bool = true <-> (0 <= a < b /\ 0 <= c <= d).
Proof.
  rewrite !andb_true_iff, !Z.leb_le, Z.ltb_lt. lia.
Qed.

Lemma paint_spec cl c n b r k :
  paint cl c n b r k = if (k =? c) && (0 <=? r) && (r <? n) then b else cl r k.
Proof. reflexivity. Qed.

Lemma click_picture g i x y : height_ok g -> picture_agrees g -> picture_agrees (click g i x y).
Proof.
  intros Hh Hp. unfold click. destruct i; [|exact Hp].
  destruct (_ && _ && _ && _)%bool eqn:G; [|exact Hp].
  apply guard_spec in G. set (idx := Qfloor x) in *. set (idy := Qceiling y) in *.
  destruct (idy <=? weights g idx) eqn:W.
  - apply Z.leb_le in W. intros r c [Hr Hc]. simpl in *. rewrite !paint_spec.
    unfold set_weight. destruct (Z.eqb_spec c idx) as [->|N]; simpl.
    + assert (E1 : (0 <=? r) = true) by (apply Z.leb_le; lia).
      assert (E2 : (r <? nrows g) = true) by (apply Z.ltb_lt; lia).
      rewrite E1, E2. simpl. destruct (r <? idy - 1) eqn:E3.
      * apply Z.ltb_lt in E3. tauto.
      * apply Z.ltb_ge in E3. split; [discriminate|lia].
    + apply Hp. split; auto.
  - apply Z.leb_gt in W. intros r c [Hr Hc]. simpl in *. rewrite !paint_spec.
    unfold set_weight. destruct (Z.eqb_spec c idx) as [->|N]; simpl.
    + assert (E1 : (0 <=? r) = true) by (apply Z.leb_le; lia). rewrite E1. simpl.
      destruct (r <? idy) eqn:E3.
      * apply Z.ltb_lt in E3. tauto.
      * apply Z.ltb_ge in E3. pose proof (proj1 (Hp r idx (conj Hr Hc))) as Q1.
        split; [intro Hf; specialize (Q1 Hf); lia|lia].
    + apply Hp. split; auto.
Qed.

Lemma click_height g i x y : height_ok g -> height_ok (click g i x y).
Proof.
  intros Hh. unfold click. destruct i; [|exact Hh].
  destruct (_ && _ && _ && _)%bool eqn:G; [|exact Hh].
  apply guard_spec in G. set (idx := Qfloor x) in *. set (idy := Qceiling y) in *.
  destruct (idy <=? weights g idx) eqn:W; intro c; simpl; unfold set_weight;
    destruct (c =? idx); try apply Hh; lia.
Qed.

Lemma click_nrows g i x y : nrows (click g i x y) = nrows g.
Proof.
  unfold click. destruct i; [|reflexivity]. destruct (_ && _ && _ && _)%bool; [|reflexivity].
  destruct (_ <=? _); reflexivity.
Qed.
Lemma click_ncols g i x y : ncols (click g i x y) = ncols g.
Proof.
  unfold click. destruct i; [|reflexivity]. destruct (_ && _ && _ && _)%bool; [|reflexivity].
  destruct (_ <=? _); reflexivity.
Qed.

Lemma new_grid_ok nr nc : height_ok (new_grid nr nc) /\ picture_agrees (new_grid nr nc).
Proof.
  split.
  - intro c; simpl; lia.
  - intros r c [Hr Hc]. simpl in *. split; [discriminate|lia].
Qed.

Lemma act_ok g a : height_ok g /\ picture_agrees g -> height_ok (act g a) /\ picture_agrees (act g a).
Proof.
  intros [H1 H2]. destruct a; simpl.
  - split; [apply click_height; auto|apply click_picture; auto].
  - apply new_grid_ok.
Qed.

Lemma run_ok l g : height_ok g /\ picture_agrees g -> height_ok (run g l) /\ picture_agrees (run g l).
Proof.
  revert g; induction l as [|a l IH]; intros g H; simpl; [exact H|]. apply IH, act_ok, H.
Qed.

(** Clicks above the base line keep the heights non-negative. *)
Lemma ceil_pos y : (0 < y)%Q -> 1 <= Qceiling y.
Proof.
  intro H. pose proof (Qle_ceiling y) as H1.
  assert (0 < inject_Z (Qceiling y))%Q as H2 by (eapply Qlt_le_trans; eauto).
  change 0%Q with (inject_Z 0) in H2. rewrite <- Zlt_Qlt in H2. lia.
Qed.

Lemma click_nonneg g i x y : (0 < y)%Q -> (forall c, 0 <= weights g c) ->
  forall c, 0 <= weights (click g i x y) c.
Proof.
  intros Hy H c. unfold click. destruct i; [|apply H].
  destruct (_ && _ && _ && _)%bool eqn:G; [|apply H].
  pose proof (ceil_pos y Hy).
  destruct (Qceiling y <=? weights g (Qfloor x)); simpl; unfold set_weight;
    destruct (c =? Qfloor x); try apply H; lia.
Qed.

Lemma run_nonneg l g : Forall above_base l -> (forall c, 0 <= weights g c) ->
  forall c, 0 <= weights (run g l) c.
Proof.
  revert g; induction l as [|a l IH]; intros g Hl H; simpl; [exact H|].
  inversion Hl; subst. apply IH; [assumption|]. destruct a; simpl in *.
  - apply click_nonneg; assumption.
  - intro c; simpl; lia.
Qed.

Lemma floor_cell x c : (inject_Z c <= x)%Q -> (x < inject_Z (c + 1))%Q -> Qfloor x = c.
Proof.
  intros H1 H2. pose proof (Qfloor_le x) as A. pose proof (Qlt_floor x) as B.
  assert (inject_Z (Qfloor x) < inject_Z (c + 1))%Q as C by (eapply Qle_lt_trans; eauto).
  assert (inject_Z c < inject_Z (Qfloor x + 1))%Q as D by (eapply Qle_lt_trans; eauto).
  rewrite <- Zlt_Qlt in C, D. lia.
Qed.

Lemma ceil_cell y r : (inject_Z r < y)%Q -> (y <= inject_Z (r + 1))%Q -> Qceiling y = r + 1.
Proof.
  intros H1 H2. pose proof (Qle_ceiling y) as A. pose proof (Qceiling_lt y) as B.
  assert (inject_Z r < inject_Z (Qceiling y))%Q as C by (eapply Qlt_le_trans; eauto).
  assert (inject_Z (Qceiling y - 1) < inject_Z (r + 1))%Q as D by (eapply Qlt_le_trans; eauto).
  rewrite <- Zlt_Qlt in C, D. lia.
Qed.

Lemma click_on_cell g x y r c :
  on_cell x y r c -> in_grid g r c ->
  forall k, weights (click g true x y) k
            = if k =? c then (if r <? weights g c then r else r + 1) else weights g k.
Proof.
  intros [H1 [H2 [H3 H4]]] [Hr Hc] k. unfold click.
  rewrite (floor_cell x c H1 H2), (ceil_cell y r H3 H4).
  assert (G : ((0 <=? c) && (c <? ncols g) && (0 <=? r + 1) && (r + 1 <=? nrows g))%bool = true).
  { apply guard_spec. lia. }
  rewrite G. destruct (Z.ltb_spec r (weights g c)).
  - assert (E : (r + 1 <=? weights g c) = true) by (apply Z.leb_le; lia). rewrite E. simpl.
    unfold set_weight. destruct (k =? c); lia.
  - assert (E : (r + 1 <=? weights g c) = false) by (apply Z.leb_gt; lia). rewrite E. simpl.
    unfold set_weight. destruct (k =? c); lia.
Qed.

Lemma click_other_column g i x y k : Qfloor x <> k -> weights (click g i x y) k = weights g k.
Proof.
  intro N. unfold click. destruct i; [|reflexivity].
  destruct (_ && _ && _ && _)%bool; [|reflexivity].
  destruct (_ <=? _); simpl; apply set_weight_other; congruence.
Qed.

(* ---------------- weights to pdf ---------------- *)
Open Scope R_scope.

Lemma range0_In n k : In k (range0 n) <-> (0 <= k < n)%Z.
Proof.
  unfold range0. rewrite in_map_iff. split.
  - intros [m [<- H]]. apply in_seq in H. lia.
  - intro H. exists (Z.to_nat k). split; [apply Z2Nat.id; lia|]. apply in_seq. lia.
Qed.

Definition items_of g := filter nonzero (weight_items g).
Definition total_of g := fold_right Z.add 0%Z (map snd (weight_items g)).

Lemma total_items g :
  Rsum (map (fun kv => IZR (snd kv)) (items_of g)) = IZR (total_of g).
Proof.
  unfold items_of, total_of. rewrite Rsum_filter, <- Rsum_IZR, map_map.
  apply Rsum_map_ext. intros [k v] _. unfold nonzero; simpl.
  destruct (Z.eqb_spec v 0); simpl; subst; reflexivity.
Qed.

Lemma total_pos g :
  (forall c, (0 <= weights g c)%Z) -> (exists c, (0 <= c < ncols g)%Z /\ (0 < weights g c)%Z) ->
  (0 < total_of g)%Z.
Proof.
  intros H [c [Hc Hw]]. unfold total_of, weight_items. rewrite map_map. simpl.
  assert (In c (range0 (ncols g))) as Hin by (apply range0_In; exact Hc).
  revert Hin. induction (range0 (ncols g)) as [|a l IH]; simpl; [tauto|].
  intros [->|Hin].
  - assert (0 <= fold_right Z.add 0 (map (fun x => weights g x) l))%Z.
    { clear -H. induction l; simpl; [lia|]. specialize (H a). lia. }
    lia.
  - specialize (H a). specialize (IH Hin). lia.
Qed.

Lemma weights_to_pdf_ok g x_min x_max :
  (2 <= ncols g)%Z ->
  (forall c, (0 <= weights g c)%Z) -> (exists c, (0 <= c < ncols g)%Z /\ (0 < weights g c)%Z) ->
  weights_to_pdf g x_min x_max =
    Ok (let step := (x_max - x_min) / IZR (ncols g - 1) in
        let xs := map (fun kv => (IZR (fst kv) + 1/2) * step + x_min) (items_of g) in
        let ps := map (fun kv => IZR (snd kv) / IZR (total_of g)) (items_of g) in
        let m := Rsum (map (fun pv => fst pv * snd pv) (combine ps xs)) in
        let v := Rsum (map (fun pv => fst pv * (snd pv - m) ^ 2) (combine ps xs)) in
        {| x_vals := xs; epdf := ps; mean := m; std := sqrt v; filled := length xs |}).
Proof.
  intros Hn H0 Hp. unfold weights_to_pdf.
  destruct (Z.eqb_spec (ncols g - 1) 0); [lia|].
  pose proof (total_pos g H0 Hp) as Ht. fold (total_of g).
  destruct (Z.eqb_spec (total_of g) 0); [lia|]. simpl. reflexivity.
Qed.

Lemma items_nonneg g kv : (forall c, (0 <= weights g c)%Z) -> In kv (items_of g) -> (0 < snd kv)%Z.
Proof.
  intros H Hin. unfold items_of in Hin. apply filter_In in Hin. destruct Hin as [Hin Hz].
  unfold weight_items in Hin. apply in_map_iff in Hin. destruct Hin as [k [<- _]].
  unfold nonzero in Hz. simpl in *. specialize (H k).
  destruct (Z.eqb_spec (weights g k) 0); [discriminate|]. lia.
Qed.

Lemma items_In g kv :
  In kv (items_of g) <-> (0 <= fst kv < ncols g)%Z /\ snd kv = weights g (fst kv) /\ snd kv <> 0%Z.
Proof.
  unfold items_of, weight_items. rewrite filter_In, in_map_iff. destruct kv as [k v]; simpl. split.
  - intros [[k' [E Hin]] Hz]. injection E as <- <-. apply range0_In in Hin.
    unfold nonzero in Hz; simpl in Hz. destruct (Z.eqb_spec (weights g k') 0); [discriminate|]. auto.
  - intros [Hk [-> Hz]]. split.
    + exists k. split; [reflexivity|]. apply range0_In; exact Hk.
    + unfold nonzero; simpl. destruct (Z.eqb_spec (weights g k) 0); [contradiction|reflexivity].
Qed.

(** Keys of the items are strictly increasing. *)
Fixpoint keys_increasing (l : list (Z * Z)) : Prop :=
  match l with
  | a :: ((b :: _) as t) => (fst a < fst b)%Z /\ keys_increasing t
  | _ => True
  end.

Lemma keys_inc_lt a l : keys_increasing (a :: l) -> forall b, In b l -> (fst a < fst b)%Z.
Proof.
  revert a; induction l as [|c l IH]; intros a H b Hb; [destruct Hb|].
  destruct H as [H1 H2]. destruct Hb as [<-|Hb]; [exact H1|].
  specialize (IH c H2 b Hb). lia.
Qed.

Lemma keys_inc_cons a l :
  (forall b, In b l -> (fst a < fst b)%Z) -> keys_increasing l -> keys_increasing (a :: l).
Proof. destruct l as [|b l]; simpl; [auto|]. intros H K. split; [apply H; left; auto|exact K]. Qed.

Lemma keys_inc_filter p l : keys_increasing l -> keys_increasing (filter p l).
Proof.
  induction l as [|a l IH]; simpl; [auto|]. intro K.
  assert (K' : keys_increasing l) by (destruct l; simpl in *; tauto).
  destruct (p a); [|auto]. apply keys_inc_cons; [|auto].
  intros b Hb. apply filter_In in Hb. apply (keys_inc_lt a l K). tauto.
Qed.

Lemma seq_keys_inc g s n :
  keys_increasing (map (fun k => (k, weights g k)) (map Z.of_nat (seq s n))).
Proof.
  revert s; induction n as [|n IH]; intro s; [exact I|].
  cbn [seq map]. apply keys_inc_cons; [|apply IH].
  intros b Hb. rewrite map_map in Hb. apply in_map_iff in Hb. destruct Hb as [m [<- Hm]].
  apply in_seq in Hm. simpl. lia.
Qed.

Lemma items_inc g : keys_increasing (items_of g).
Proof. apply keys_inc_filter. apply seq_keys_inc. Qed.

Lemma increasing_map f l :
  (forall a b, (fst a < fst b)%Z -> f a < f b) -> keys_increasing l -> increasing (map f l).
Proof.
  intro Hf. induction l as [|a l IH]; [simpl; auto|].
  destruct l as [|b l]; [simpl; auto|]. intros [H1 H2]. split; [apply Hf; exact H1|]. apply IH; exact H2.
Qed.
