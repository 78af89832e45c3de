(** C85: from the chips of several experts to one distribution: the sessions of Roulette (WidgetModel) whose [inputs] are handed to
    combine_roulette (PoolModel). *)
From Coq Require Import List Bool String Reals ZArith QArith Lra Lia.
From Verif Require Import Base RLists XR CatModel RouletteModel RouletteProofs WidgetModel WidgetProps PoolModel PoolSpec PoolProofs PoolProps.
Import ListNotations.
Open Scope R_scope.

(* ---------------------------------------------------------------- specification *)
(** No click below the base line of the grid. *)
Definition above (e : revent) : Prop := match e with RPress _ _ y => (0 < y)%Q | _ => True end.
(** Somebody opens Roulette, does anything with it in whatever order (save clicking below the grid) and releases the mouse. Then the limits are [lo] and [hi],
    the grid has so many rows and columns, [h c] chips are shown in column [c], and [r] is the tuple in the attribute [inputs]. *)
Definition answered (lo hi : R) (rows cols : Z) (h : Z -> Z) (r : response) : Prop :=
  exists (D : Type) fit x_min x_max nr nc names params events errors s s' i,
    Forall above events /\ rrun D fit (new_roulette D x_min x_max nr nc names params) events = (s, errors) /\
    l_min s = lo /\ l_max s = hi /\ nrows (WidgetModel.r_grid s) = rows /\ ncols (WidgetModel.r_grid s) = cols /\ h = weights (WidgetModel.r_grid s) /\
    rstep D fit s RRelease = (s', None) /\ r_inputs s' = Some i /\
    r = {| r_x := i_x i; r_pdf := i_pdf i; r_chips := IZR (i_chips i); PoolModel.r_grid := ((i_min i, i_max i), (i_rows i, i_cols i)) |}.
(** The value that stands for column [c]. *)
Definition column_value (lo hi : R) (cols c : Z) : R := lo + (IZR c + 1 / 2) * ((hi - lo) / IZR (cols - 1)).
Definition columns (cols : Z) : list Z := map Z.of_nat (seq 0 (Z.to_nat cols)).
(** All the chips of an expert. *)
Definition all_chips (cols : Z) (h : Z -> Z) : R := fold_right Rplus 0 (map (fun c => IZR (h c)) (columns cols)).
(** Sum over the experts of their weight times [f]. *)
Definition weighted (hs : list (Z -> Z)) (ws : list R) (f : (Z -> Z) -> R) : R :=
  fold_right Rplus 0 (map (fun hw => snd hw * f (fst hw)) (combine hs ws)).
(** The chips of all experts on one board. *)
Definition stacked (hs : list (Z -> Z)) (c : Z) : Z := fold_right Z.add 0%Z (map (fun h => h c) hs).

(* ---------------------------------------------------------------- what a session reports *)
Lemma step_nonneg D fit s e : above e -> (forall c, (0 <= weights (WidgetModel.r_grid s) c)%Z) ->
  forall c, (0 <= weights (WidgetModel.r_grid (fst (rstep D fit s e))) c)%Z.
Proof.
  intros A H.
  assert (LC : forall z, (forall c, (0 <= weights (WidgetModel.r_grid z) c)%Z) -> forall c, (0 <= weights (WidgetModel.r_grid (fst (on_leave_fig D fit z))) c)%Z).
  { intros z K. destruct (leave_controls D fit z) as (_ & _ & G & _). rewrite G. exact K. }
  assert (HC : forall z, (forall c, (0 <= weights (WidgetModel.r_grid z) c)%Z) -> forall c, (0 <= weights (WidgetModel.r_grid (fst (handle_checkbox_change D fit z))) c)%Z).
  { intros z K. unfold handle_checkbox_change. set (z' := if b_none z then _ else _).
    assert (K' : forall c, (0 <= weights (WidgetModel.r_grid z') c)%Z) by (unfold z'; destruct (b_none z); exact K).
    destruct (names_eqb _ _); [exact K'|]. apply LC. exact K'. }
  destruct e; cbn [rstep above] in *.
  - apply click_nonneg; assumption.
  - apply LC. exact H.
  - destruct (Reqb v (w_min s)); [exact H|]. cbn. intro c. lia.
  - destruct (Reqb v (w_max s)); [exact H|]. cbn. intro c. lia.
  - destruct (Z.eqb _ _); [exact H|]. cbn. intro c. lia.
  - destruct (Z.eqb _ _); [exact H|]. cbn. intro c. lia.
  - destruct (String.eqb _ _); [exact H|]. apply LC. exact H.
  - destruct (String.eqb _ _); [exact H|]. apply LC. exact H.
  - destruct (names_eqb _ _); [exact H|]. apply LC. exact H.
  - destruct (eqb _ _); [exact H|]. apply HC. exact H.
  - destruct (eqb _ _); [exact H|]. apply HC. exact H.
  - destruct (eqb _ _); [exact H|]. apply HC. exact H.
Qed.
Lemma run_chips D fit l : forall s, Forall above l -> (forall c, (0 <= weights (WidgetModel.r_grid s) c)%Z) ->
  forall c, (0 <= weights (WidgetModel.r_grid (fst (rrun D fit s l))) c)%Z.
Proof.
  induction l as [|e l IH]; intros s A H; cbn [rrun]; [exact H|]. inversion A; subst.
  pose proof (step_nonneg D fit s e H2 H) as K. destruct (rstep D fit s e) as [s1 x]. cbn [fst] in K.
  specialize (IH s1 H3 K). destruct (rrun D fit s1 l) as [s2 xs]. exact IH.
Qed.
Lemma answered_spec lo hi rows cols h r : answered lo hi rows cols h r ->
  (forall c, (0 <= h c)%Z) /\ PoolModel.r_grid r = ((lo, hi), (rows, cols)) /\
  exists g p, ncols g = cols /\ weights g = h /\ weights_to_pdf g lo hi = Ok p /\ r_x r = x_vals p /\ r_pdf r = epdf p /\ r_chips r = IZR (total_of g).
Proof.
  intros (D & fit & x_min & x_max & nr & nc & names & params & events & errors & s & s' & i & A & Ru & Lo & Hi & Ro & Co & Hh & St & Ii & ->).
  split; [|].
  - pose proof (run_chips D fit events (new_roulette D x_min x_max nr nc names params) A (fun c => Z.le_refl 0)) as K. rewrite Ru in K. cbn [fst] in K. rewrite Hh. exact K.
  - destruct (C69_release D fit s s' St) as (_ & p & W & I & _). rewrite I in Ii. injection Ii as <-. cbn [i_x i_pdf i_chips i_min i_max i_rows i_cols PoolModel.r_grid r_x r_pdf r_chips].
    split; [congruence|]. exists (WidgetModel.r_grid s), p. repeat split; auto. congruence.
Qed.
Lemma reported_contrib g lo hi p f : weights_to_pdf g lo hi = Ok p ->
  IZR (total_of g) * Rsum (map (fun xp => f (fst xp) * snd xp) (combine (x_vals p) (epdf p))) =
  Rsum (map (fun c => IZR (weights g c) * f (column_value lo hi (ncols g) c)) (columns (ncols g))).
Proof.
  unfold weights_to_pdf. destruct (Z.eqb_spec (ncols g - 1) 0) as [|N]; [discriminate|]. fold (total_of g) (items_of g).
  set (step := (hi - lo) / IZR (ncols g - 1)).
  assert (R : Rsum (map (fun kv => IZR (snd kv) * f ((IZR (fst kv) + 1 / 2) * step + lo)) (items_of g)) =
              Rsum (map (fun c => IZR (weights g c) * f (column_value lo hi (ncols g) c)) (columns (ncols g)))).
  { unfold items_of, weight_items. rewrite Rsum_filter, map_map. change (range0 (ncols g)) with (columns (ncols g)). apply Rsum_map_ext. intros c _.
    unfold nonzero. cbn [fst snd]. unfold column_value. fold step. destruct (Z.eqb_spec (weights g c) 0) as [E|E]; cbn [negb].
    - rewrite E. lra.
    - f_equal. f_equal. ring. }
  rewrite <- R. destruct (Z.eqb_spec (total_of g) 0) as [T|T]; cbn [andb].
  - destruct (items_of g) as [|kv l] eqn:I; cbn [length Nat.eqb negb]; [|discriminate]. intro H. injection H as <-. cbn. unfold Rsum. cbn. ring.
  - intro H. injection H as <-. cbn [x_vals epdf]. rewrite combine_map2, map_map. cbn [fst snd].
    rewrite <- Rsum_map_scal. apply Rsum_map_ext. intros kv _. field. apply not_0_IZR. exact T.
Qed.
Lemma reported_values g lo hi p x : weights_to_pdf g lo hi = Ok p ->
  In x (x_vals p) <-> exists c, In c (columns (ncols g)) /\ weights g c <> 0%Z /\ x = column_value lo hi (ncols g) c.
Proof.
  unfold weights_to_pdf. destruct (Z.eqb_spec (ncols g - 1) 0) as [|N]; [discriminate|]. destruct (andb _ _); [discriminate|]. intro H. injection H as <-. cbn [x_vals].
  rewrite in_map_iff. fold (items_of g). change (columns (ncols g)) with (range0 (ncols g)). unfold column_value. split.
  - intros ([k v] & <- & I). apply items_In in I. cbn [fst snd] in *. destruct I as (K & -> & Z). exists k. rewrite range0_In. repeat split; try tauto. ring.
  - intros (c & C & W & ->). exists (c, weights g c). cbn [fst snd]. split; [ring|]. apply items_In. cbn [fst snd]. apply range0_In in C. auto.
Qed.
Lemma reported_lengths g lo hi p : weights_to_pdf g lo hi = Ok p -> List.length (x_vals p) = List.length (epdf p).
Proof.
  unfold weights_to_pdf. destruct (Z.eqb _ _); [discriminate|]. destruct (andb _ _); [discriminate|]. intro H. injection H as <-. cbn [x_vals epdf]. rewrite !map_length. reflexivity.
Qed.

(* ---------------------------------------------------------------- the pooled histogram *)
Lemma in_add_to d x v y : In y (map fst (add_to d x v)) <-> In y (map fst d) \/ y = x.
Proof.
  destruct (add_to_keys d x v) as [A B]. destruct (in_dec Req_EM_T x (map fst d)) as [I|N].
  - rewrite A by exact I. split; [tauto|]. intros [H| ->]; assumption.
  - rewrite B by exact N. rewrite in_app_iff. cbn [In]. intuition congruence.
Qed.
Lemma in_pool rs ws y : In y (map fst (pool rs ws)) <-> exists r w, In (r, w) (combine rs ws) /\ In y (map fst (combine (r_x r) (r_pdf r))).
Proof.
  unfold pool. set (step := fun _ _ => _).
  assert (G : forall l d, In y (map fst (fold_left step l d)) <-> In y (map fst d) \/ exists r w, In (r, w) l /\ In y (map fst (combine (r_x r) (r_pdf r)))).
  { induction l as [|[r w] l IH]; intro d; cbn [fold_left]; [split; [tauto|]; intros [H|(r & w & [] & _)]; exact H|].
    rewrite IH. assert (E : In y (map fst (step d (r, w))) <-> In y (map fst d) \/ In y (map fst (combine (r_x r) (r_pdf r)))).
    { unfold step. clear IH. generalize (combine (r_x r) (r_pdf r)). intro m. revert d. induction m as [|[x p] m IHm]; intro d; cbn [fold_left map In fst snd]; [tauto|].
      rewrite IHm, in_add_to. intuition congruence. }
    rewrite E. split.
    - intros [[H|H]|(r' & w' & I & J)]; [tauto | right; exists r, w; split; [left; reflexivity | exact H] | right; exists r', w'; split; [right; exact I | exact J]].
    - intros [H|(r' & w' & [I|I] & J)]; [tauto | injection I as <- <-; tauto | right; exists r', w'; tauto]. }
  rewrite G. cbn. tauto.
Qed.
(** [combine_roulette_ok] without asking that every expert has chips. *)
Lemma pooled_general rs ws :
  rs <> [] -> same_grid rs -> Forall (fun w => 0 <= w) ws -> 0 < over_experts rs ws (contrib (fun _ => 1)) ->
  let T := over_experts rs ws (contrib (fun _ => 1)) in
  exists p, combine_roulette rs (Some ws) = Ok p /\
    p_x p = map fst (pool rs (map (fun x => x / Rsum ws) ws)) /\ List.length (p_pdf p) = List.length (p_x p) /\
    (forall f, dsum f (combine (p_x p) (p_pdf p)) = over_experts rs ws (contrib f) / T) /\
    p_mean p = over_experts rs ws (contrib (fun x => x)) / T /\
    p_std p = sqrt (dsum (fun x => (x - p_mean p) ^ 2) (combine (p_x p) (p_pdf p))).
Proof.
  intros Hne Hg Hw HT T.
  assert (HS : 0 < Rsum ws).
  { destruct (Rle_lt_dec (Rsum ws) 0) as [L|L]; [|exact L]. exfalso.
    pose proof (Rsum_nonneg ws Hw) as N. assert (Z : Rsum ws = 0) by lra. assert (A : forall w, In w ws -> w = 0).
    { apply (Rsum_zero_all (fun x => x)); [apply Forall_forall; exact Hw|rewrite map_id; exact Z]. }
    assert (E : forall f, over_experts rs ws f = 0).
    { intro f. clear HT T Hne Hg. unfold over_experts. revert rs A. clear. induction ws as [|w ws IH]; intros [|r rs] A; simpl; auto.
      rewrite (A w) by (left; auto). rewrite IH by (intros; apply A; right; auto). lra. }
    rewrite E in HT. lra. }
  assert (Htot : Rsum (map snd (pool rs (map (fun x => x / Rsum ws) ws))) = T / Rsum ws).
  { replace (Rsum (map snd (pool rs (map (fun x => x / Rsum ws) ws)))) with (dsum (fun _ => 1) (pool rs (map (fun x => x / Rsum ws) ws)))
      by (unfold dsum; apply Rsum_map_ext; intros; lra).
    rewrite dsum_pool, over_experts_scale. reflexivity. }
  assert (HTp : 0 < T / Rsum ws) by (apply Rdiv_lt_0_compat; auto).
  unfold combine_roulette. rewrite norm_some by auto. simpl bind. destruct rs as [|r0 rs]; [congruence|].
  rewrite (same_grid_test r0 rs Hg). simpl negb. cbn iota. rewrite Htot. destruct (Reqb_spec (T / Rsum ws) 0); [lra|]. simpl andb. cbn iota.
  set (d := pool (r0 :: rs) (map (fun x => x / Rsum ws) ws)) in *. set (d' := map (fun xv : R * R => (fst xv, snd xv / (T / Rsum ws))) d).
  assert (Hd : forall f, dsum f d' = over_experts (r0 :: rs) ws (contrib f) / T).
  { intro f. unfold dsum, d'. rewrite map_map. cbn [fst snd].
    rewrite (Rsum_map_ext _ (fun xv => (f (fst xv) * snd xv) / (T / Rsum ws))) by (intros; unfold Rdiv; ring).
    rewrite Rsum_map_div. fold (dsum f d). unfold d. rewrite dsum_pool, over_experts_scale. assert (0 < T) by exact HT. unfold T in *. field. split; lra. }
  assert (Hc : combine (map fst d') (map snd d') = d') by apply combine_fst_snd.
  eexists; split; [reflexivity|]. cbn [p_x p_pdf p_mean p_std]. fold d'. rewrite Hc. repeat split.
  - unfold d'. rewrite map_map. reflexivity.
  - rewrite !map_length. reflexivity.
  - exact Hd.
  - rewrite <- Hd. unfold dsum. reflexivity.
  - f_equal. unfold dsum. apply Rsum_map_ext. intros; ring.
Qed.
Lemma answers_sum lo hi rows cols hs rs : Forall2 (answered lo hi rows cols) hs rs -> forall f ws,
  over_experts rs ws (contrib f) = weighted hs ws (fun h => Rsum (map (fun c => IZR (h c) * f (column_value lo hi cols c)) (columns cols))).
Proof.
  intros A f. induction A as [|h r hs rs A _ IH]; intros [|w ws]; try reflexivity. unfold over_experts, weighted in *. cbn [combine map fold_right fst snd]. rewrite IH. f_equal.
  destruct (answered_spec _ _ _ _ _ _ A) as (_ & _ & g & p & <- & <- & W & X & P & C). rewrite <- (reported_contrib g lo hi p f W). unfold contrib. rewrite X, P, C. ring.
Qed.
Lemma answers_grid lo hi rows cols hs rs : Forall2 (answered lo hi rows cols) hs rs -> same_grid rs.
Proof.
  intros A. assert (G : forall r, In r rs -> PoolModel.r_grid r = ((lo, hi), (rows, cols))).
  { induction A as [|h r hs rs A _ IH]; intros r' I; [destruct I|]. destruct I as [<-|I]; [|auto]. apply (answered_spec _ _ _ _ _ _ A). }
  intros a b Ia Ib. rewrite (G a Ia), (G b Ib). reflexivity.
Qed.
Lemma column_value_inj lo hi cols a b : lo < hi -> (2 <= cols)%Z -> column_value lo hi cols a = column_value lo hi cols b -> a = b.
Proof.
  intros L C E. unfold column_value in E. assert (P : 0 < (hi - lo) / IZR (cols - 1)) by (apply Rdiv_lt_0_compat; [lra | apply IZR_lt; lia]).
  apply eq_IZR. apply Rplus_eq_reg_l with (r := 1 / 2). apply Rmult_eq_reg_r with (r := (hi - lo) / IZR (cols - 1)); lra.
Qed.
Lemma columns_in cols c : In c (columns cols) <-> (0 <= c < cols)%Z.
Proof. apply range0_In. Qed.
Lemma columns_nodup cols : NoDup (columns cols).
Proof. unfold columns. apply FinFun.Injective_map_NoDup; [intros a b; apply Nat2Z.inj | apply seq_NoDup]. Qed.
Lemma Rsum_single {A} (dec : forall a b : A, {a = b} + {a <> b}) (f : A -> R) l a : NoDup l -> In a l ->
  Rsum (map (fun c => f c * (if dec c a then 1 else 0)) l) = f a.
Proof.
  induction l as [|b l IH]; intros N I; [destruct I|]. inversion N; subst. cbn [map]. rewrite Rsum_cons. destruct (dec b a) as [->|D].
  - rewrite Rsum_map_zero; [lra|]. intros c Ic. destruct (dec c a) as [->|]; [contradiction | lra].
  - destruct I as [->|I]; [congruence|]. rewrite IH by assumption. lra.
Qed.
Lemma mass_dsum x xs ps : mass_at x xs ps = dsum (fun y => if Req_EM_T y x then 1 else 0) (combine xs ps).
Proof. unfold mass_at, dsum. apply Rsum_map_ext. intros [y v] _. cbn [fst snd]. destruct (Req_EM_T y x); lra. Qed.
Lemma weighted_ext hs ws f g : (forall h, In h hs -> f h = g h) -> weighted hs ws f = weighted hs ws g.
Proof.
  unfold weighted. revert ws. induction hs as [|h hs IH]; intros [|w ws] H; cbn [combine map fold_right]; try reflexivity.
  cbn [fst snd]. rewrite (H h) by (left; reflexivity). rewrite IH; [reflexivity|]. intros k I. apply H. right. exact I.
Qed.

Section Pooled.
Variables (lo hi : R) (rows cols : Z) (hs : list (Z -> Z)) (rs : list response).
Hypothesis answers : Forall2 (answered lo hi rows cols) hs rs.

Lemma pooled_chips ws : Forall (fun w => 0 <= w) ws -> 0 < weighted hs ws (all_chips cols) ->
  exists p, combine_roulette rs (Some ws) = Ok p /\ NoDup (p_x p) /\ List.length (p_pdf p) = List.length (p_x p) /\
    (forall f, dsum f (combine (p_x p) (p_pdf p)) =
      weighted hs ws (fun h => Rsum (map (fun c => IZR (h c) * f (column_value lo hi cols c)) (columns cols))) / weighted hs ws (all_chips cols)) /\
    p_mean p = dsum (fun x => x) (combine (p_x p) (p_pdf p)) /\ p_std p = sqrt (dsum (fun x => (x - p_mean p) ^ 2) (combine (p_x p) (p_pdf p))) /\
    (forall x, In x (p_x p) <-> exists h w c, In (h, w) (combine hs ws) /\ (0 <= c < cols)%Z /\ (0 < h c)%Z /\ x = column_value lo hi cols c).
Proof.
  intros W P. assert (T : over_experts rs ws (contrib (fun _ => 1)) = weighted hs ws (all_chips cols)).
  { rewrite (answers_sum _ _ _ _ _ _ answers). apply weighted_ext. intros h _. unfold all_chips. fold (Rsum (map (fun c => IZR (h c)) (columns cols))).
    apply Rsum_map_ext. intros; ring. }
  assert (NE : rs <> []). { intros ->. inversion answers; subst. unfold weighted in P. cbn in P. lra. }
  destruct (pooled_general rs ws NE (answers_grid _ _ _ _ _ _ answers) W) as (p & E & X & L & F & M & Sd); [rewrite T; exact P|].
  rewrite T in F, M. exists p. split; [exact E|]. split; [rewrite X; apply pool_nodup|]. split; [exact L|].
  split; [intro f; rewrite F, (answers_sum _ _ _ _ _ _ answers); reflexivity|]. split; [rewrite M, F; reflexivity|]. split; [exact Sd|].
  intro x. rewrite X, in_pool. clear - answers. set (k := Rsum ws). clearbody k. revert ws. induction answers as [|h r hs' rs' A F IH]; intros [|w ws]; cbn [map combine In].
  1-3: split; [intros (? & ? & [] & _) | intros (? & ? & ? & [] & _)].
  specialize (IH F ws). destruct (answered_spec _ _ _ _ _ _ A) as (NN & _ & g & p & C & G & Wp & X & Pp & _).
  assert (V : In x (map fst (combine (r_x r) (r_pdf r))) <-> exists c, (0 <= c < cols)%Z /\ (0 < h c)%Z /\ x = column_value lo hi cols c).
  { assert (FC : forall a b : list R, List.length a = List.length b -> map fst (combine a b) = a).
    { induction a as [|u a IHa]; intros [|v b] Le; cbn in *; try discriminate; [reflexivity|]. f_equal. apply IHa. lia. }
    rewrite X, Pp, FC by (apply (reported_lengths g lo hi p Wp)). rewrite (reported_values g lo hi p x Wp), C, G. split.
    - intros (c & I & N & E). exists c. apply columns_in in I. specialize (NN c). repeat split; try tauto; lia.
    - intros (c & I & N & E). exists c. split; [apply columns_in; exact I|]. split; [lia | exact E]. }
  split.
  - intros (r' & w' & [I|I] & J).
    + injection I as <- <-. apply V in J. destruct J as (c & J). exists h, w, c. split; [left; reflexivity | exact J].
    + destruct (proj1 IH) as (h' & w'' & c & I' & J'); [exists r', w'; auto|]. exists h', w'', c. split; [right; exact I' | exact J'].
  - intros (h' & w' & c & [I|I] & J).
    + injection I as <- <-. exists r, (w / k). split; [left; reflexivity|]. apply V. exists c. exact J.
    + destruct (proj2 IH) as (r' & w'' & I' & J'); [exists h', w', c; auto|]. exists r', w''. split; [right; exact I' | exact J'].
Qed.
End Pooled.

(* ---------------------------------------------------------------- theorems *)
(** Whatever several people did on their boards, as long as the limits and the grid are the same and somebody with a positive weight placed chips: the values pooled are
    those of the columns with chips, each once, and the probability of a column is the share of its chips in all the chips, where a chip counts as much as the weight
    of whoever placed it. Boards without chips do not count. *)
Theorem C85_chips : forall lo hi rows cols hs rs ws,
  lo < hi -> (2 <= cols)%Z -> Forall2 (answered lo hi rows cols) hs rs ->
  Forall (fun w => 0 <= w) ws -> 0 < weighted hs ws (all_chips cols) ->
  exists p, combine_roulette rs (Some ws) = Ok p /\ NoDup (p_x p) /\ List.length (p_pdf p) = List.length (p_x p) /\ fold_right Rplus 0 (p_pdf p) = 1 /\
    (forall x, In x (p_x p) <-> exists h w c, In (h, w) (combine hs ws) /\ (0 <= c < cols)%Z /\ (0 < h c)%Z /\ x = column_value lo hi cols c) /\
    (forall c, (0 <= c < cols)%Z ->
       mass_at (column_value lo hi cols c) (p_x p) (p_pdf p) = weighted hs ws (fun h => IZR (h c)) / weighted hs ws (all_chips cols)).
Proof.
  intros lo hi rows cols hs rs ws L C A W P. destruct (pooled_chips lo hi rows cols hs rs A ws W P) as (p & E & N & Le & F & _ & _ & V).
  exists p. split; [exact E|]. split; [exact N|]. split; [exact Le|]. split; [|split; [exact V|]].
  - specialize (F (fun _ => 1)). unfold dsum in F. rewrite (Rsum_map_ext _ snd) in F by (intros; lra).
    assert (SC : forall a b : list R, List.length b = List.length a -> map snd (combine a b) = b).
    { induction a as [|u a IHa]; intros [|v b] Lb; cbn in *; try discriminate; [reflexivity|]. f_equal. apply IHa. lia. }
    rewrite SC in F by exact Le. unfold Rsum in F at 1. rewrite F. rewrite (weighted_ext _ _ _ (all_chips cols)); [field; lra|].
    intros h _. unfold all_chips. fold (Rsum (map (fun c => IZR (h c)) (columns cols))). apply Rsum_map_ext. intros; ring.
  - intros c I. rewrite mass_dsum, F. f_equal. apply weighted_ext. intros h _.
    rewrite <- (Rsum_single Z.eq_dec (fun c => IZR (h c)) (columns cols) c (columns_nodup cols)) by (apply columns_in; exact I).
    apply Rsum_map_ext. intros c' _. destruct (Req_EM_T _ _) as [Q|Q]; destruct (Z.eq_dec c' c) as [D|D]; try reflexivity.
    + apply column_value_inj in Q; [congruence | exact L | exact C].
    + congruence.
Qed.

(** Without weights, the experts together are one expert: what is fitted has the values, probabilities, mean and deviation that Roulette reports for one board with
    all their chips stacked. *)
Theorem C85_stacked : forall lo hi rows cols hs rs g,
  lo < hi -> (2 <= cols)%Z -> Forall2 (answered lo hi rows cols) hs rs -> (exists h c, In h hs /\ (0 <= c < cols)%Z /\ (0 < h c)%Z) ->
  ncols g = cols -> (forall c, weights g c = stacked hs c) ->
  exists p q, combine_roulette rs None = Ok p /\ weights_to_pdf g lo hi = Ok q /\
    (forall x, In x (p_x p) <-> In x (x_vals q)) /\ (forall x, mass_at x (p_x p) (p_pdf p) = mass_at x (x_vals q) (epdf q)) /\
    p_mean p = mean q /\ p_std p = std q.
Proof.
  intros lo hi rows cols hs rs g L C A (h0 & c0 & I0 & C0 & P0) Gc Gw.
  assert (NN : forall h, In h hs -> forall c, (0 <= h c)%Z).
  { clear - A. induction A as [|h r hs rs A _ IH]; intros h' I; [destruct I|]. destruct I as [<-|I]; [apply (answered_spec _ _ _ _ _ _ A) | auto]. }
  assert (NE : rs <> []) by (intros ->; inversion A; subst; contradiction).
  assert (Len : List.length hs = List.length rs) by (clear - A; induction A; cbn; congruence).
  assert (Ws : forall f, weighted hs (map (fun _ : response => 1) rs) f = Rsum (map f hs)).
  { intro f. unfold weighted. clear - Len. revert rs Len. induction hs as [|h hs IH]; intros [|r rs] Len; cbn in *; try discriminate; [reflexivity|].
    rewrite IH by lia. rewrite Rsum_cons. lra. }
  assert (St : forall f, Rsum (map (fun h => Rsum (map (fun c => IZR (h c) * f c) (columns cols))) hs) =
                         Rsum (map (fun c => IZR (weights g c) * f c) (columns cols))).
  { intro f. rewrite Rsum_exchange. apply Rsum_map_ext. intros c _. rewrite Gw. unfold stacked. rewrite <- Rsum_IZR, map_map, <- Rsum_map_scal_r. reflexivity. }
  assert (Gn : forall c, (0 <= weights g c)%Z).
  { intro c. rewrite Gw. unfold stacked. clear - NN. induction hs as [|h hs IH]; cbn [map fold_right]; [lia|].
    pose proof (NN h (or_introl eq_refl) c). specialize (IH (fun h' I => NN h' (or_intror I))). lia. }
  assert (Gp : exists c, (0 <= c < ncols g)%Z /\ (0 < weights g c)%Z).
  { exists c0. rewrite Gc. split; [exact C0|]. rewrite Gw. unfold stacked. clear - NN I0 P0. induction hs as [|h hs IH]; [destruct I0|]. cbn [map fold_right].
    assert (R : (0 <= fold_right Z.add 0 (map (fun h => h c0) hs))%Z).
    { clear - NN. induction hs as [|k hs IH]; cbn [map fold_right]; [lia|]. pose proof (NN k (or_intror (or_introl eq_refl)) c0).
      assert (forall h', In h' (h :: hs) -> forall c, (0 <= h' c)%Z) by (intros h' [<-|I]; apply NN; [left; reflexivity | right; right; exact I]). specialize (IH H0). lia. }
    destruct I0 as [->|I]; [lia|]. specialize (IH I (fun h' J => NN h' (or_intror J))). pose proof (NN h (or_introl eq_refl) c0). lia. }
  pose proof (total_pos g Gn Gp) as Tp. apply IZR_lt in Tp.
  assert (TT : Rsum (map (all_chips cols) hs) = IZR (total_of g)).
  { transitivity (Rsum (map (fun h => Rsum (map (fun c => IZR (h c) * 1) (columns cols))) hs)).
    - apply Rsum_map_ext. intros h _. unfold all_chips. fold (Rsum (map (fun c => IZR (h c)) (columns cols))). apply Rsum_map_ext. intros; ring.
    - rewrite (St (fun _ => 1)). unfold total_of, weight_items. rewrite map_map, <- Rsum_IZR, map_map. rewrite Gc. apply Rsum_map_ext. intros; cbn; ring. }
  destruct (pooled_chips lo hi rows cols hs rs A (map (fun _ => 1) rs)) as (p & E & N & Le & F & M & Sd & V).
  { apply Forall_forall. intros w I. apply in_map_iff in I. destruct I as (r & <- & _). lra. }
  { rewrite Ws, TT. exact Tp. }
  rewrite <- C35_default_weights_equal in E by exact NE.
  pose proof (weights_to_pdf_ok g lo hi ltac:(lia) Gn Gp) as Wq. match type of Wq with _ = Ok ?z => set (q := z) in Wq end.
  assert (Q : forall f, dsum f (combine (p_x p) (p_pdf p)) = dsum f (combine (x_vals q) (epdf q))).
  { intro f. rewrite F, !Ws, (St (fun c => f (column_value lo hi cols c))), TT. rewrite <- Gc, <- (reported_contrib g lo hi q f Wq). unfold dsum. field. lra. }
  assert (Mq : mean q = dsum (fun x => x) (combine (x_vals q) (epdf q))).
  { unfold q. cbn [mean x_vals epdf]. unfold dsum. rewrite !combine_map2, !map_map. cbn [fst snd]. apply Rsum_map_ext. intros; ring. }
  assert (Sq : std q = sqrt (dsum (fun x => (x - mean q) ^ 2) (combine (x_vals q) (epdf q)))).
  { unfold q. cbn [std mean x_vals epdf]. f_equal. unfold dsum. rewrite !combine_map2, !map_map. cbn [fst snd]. apply Rsum_map_ext. intros; ring. }
  exists p, q. split; [exact E|]. split; [exact Wq|]. split; [|split; [|split]].
  - intro x. rewrite V, (reported_values g lo hi q x Wq), Gc. split.
    + intros (h & w & c & I & Ci & Hc & ->). exists c. split; [apply columns_in; exact Ci|]. split; [|reflexivity]. apply in_combine_l in I.
      rewrite Gw. unfold stacked. assert (h c <= fold_right Z.add 0 (map (fun h => h c) hs))%Z; [|lia].
      clear - I NN. induction hs as [|k hs IH]; [destruct I|]. cbn [map fold_right].
      assert (R : (0 <= fold_right Z.add 0 (map (fun h => h c) hs))%Z).
      { assert (forall h', In h' hs -> forall c, (0 <= h' c)%Z) as K by (intros h' J; apply NN; right; exact J). clear - K. induction hs as [|k hs IH]; cbn [map fold_right]; [lia|].
        pose proof (K k (or_introl eq_refl) c). specialize (IH (fun h' J => K h' (or_intror J))). lia. }
      destruct I as [->|I]; [lia|]. specialize (IH (fun h' J => NN h' (or_intror J)) I). pose proof (NN k (or_introl eq_refl) c). lia.
    + intros (c & Ci & Wc & ->). apply columns_in in Ci. rewrite Gw in Wc.
      assert (K : exists h, In h hs /\ h c <> 0%Z).
      { clear - Wc. unfold stacked in Wc. induction hs as [|h hs IH]; cbn [map fold_right] in Wc; [congruence|]. destruct (Z.eq_dec (h c) 0) as [Z|Z].
        - destruct IH as (h' & I & J); [lia|]. exists h'. split; [right; exact I | exact J].
        - exists h. split; [left; reflexivity | exact Z]. }
      destruct K as (h & I & J). assert (Cb : exists w, In (h, w) (combine hs (map (fun _ : response => 1) rs))).
      { clear - I Len. revert rs Len. induction hs as [|k hs IH]; intros [|r rs] Len; cbn in *; try discriminate; [destruct I|].
        destruct I as [->|I]; [exists 1; left; reflexivity|]. destruct (IH I rs ltac:(lia)) as (w & Q). exists w. right. exact Q. }
      destruct Cb as (w & Cb). exists h, w, c. split; [exact Cb|]. split; [exact Ci|]. pose proof (NN h I c). split; [lia | reflexivity].
  - intro x. rewrite !mass_dsum. apply Q.
  - rewrite M, Mq. apply Q.
  - rewrite Sd, Sq, Q. assert (p_mean p = mean q) as -> by (rewrite M, Mq; apply Q). reflexivity.
Qed.

(** If nobody placed a chip nothing is pooled, and no error is raised either: the fit that follows gets no points, mean 0 and deviation 0. *)
Theorem C85_no_chips : forall lo hi rows cols hs rs ws, Forall2 (answered lo hi rows cols) hs rs -> rs <> [] ->
  (forall h c, In h hs -> (0 <= c < cols)%Z -> h c = 0%Z) -> Forall (fun w => 0 <= w) ws -> 0 < fold_right Rplus 0 ws ->
  combine_roulette rs (Some ws) = Ok {| p_x := []; p_pdf := []; p_mean := 0; p_std := 0 |}.
Proof.
  intros lo hi rows cols hs rs ws A NE Z W P. unfold combine_roulette. rewrite norm_some by assumption. simpl bind.
  assert (E : forall ws, pool rs ws = []).
  { intro v. destruct (pool rs v) as [|[x m] l] eqn:E; [reflexivity|]. exfalso.
    assert (I : In x (map fst (pool rs v))) by (rewrite E; left; reflexivity). apply in_pool in I. destruct I as (r & w & I & J). apply in_combine_l in I.
    assert (X : exists h, In h hs /\ answered lo hi rows cols h r).
    { clear - A I. induction A as [|h r' hs rs A _ IH]; [destruct I|]. destruct I as [->|I]; [exists h; split; [left; reflexivity | exact A]|].
      destruct (IH I) as (h' & K & L). exists h'. split; [right; exact K | exact L]. }
    destruct X as (h & Ih & Ah). destruct (answered_spec _ _ _ _ _ _ Ah) as (_ & _ & g & p & C & G & Wp & X & Pp & _).
    rewrite X, Pp in J. assert (K : In x (x_vals p)).
    { clear - J. apply in_map_iff in J. destruct J as ([a b] & <- & J). apply in_combine_l in J. exact J. }
    apply (reported_values g lo hi p x Wp) in K. destruct K as (c & Ic & Wc & _). apply columns_in in Ic. rewrite C in Ic. apply Wc. rewrite G. apply (Z h c Ih Ic). }
  pose proof (answers_grid _ _ _ _ _ _ A) as SG. destruct rs as [|r0 rs]; [congruence|]. rewrite (same_grid_test r0 rs SG). simpl negb. cbn iota. rewrite E. cbn [map List.length Nat.eqb negb].
  rewrite andb_false_r. unfold Rsum. cbn [map fold_right]. rewrite sqrt_0. reflexivity.
Qed.

(* ---------------------------------------------------------------- cases *)
Definition no_fit : list cls -> pdf_result -> R -> R -> string -> res (option string) := fun _ _ _ _ _ => Ok None.
(** One click on an empty board of ten rows and three columns between 0 and 1. *)
Definition clicked (x y : Q) : roulette string := fst (rrun string no_fit (new_roulette string 0 1 10 3 None "") [RPress true x y]).
Lemma clicked_answer x y c n : (0 < y)%Q -> Qround.Qfloor x = c -> Qround.Qceiling y = n -> (0 <= c < 3)%Z -> (0 < n <= 10)%Z ->
  weights (WidgetModel.r_grid (clicked x y)) c = n /\ (forall k, k <> c -> weights (WidgetModel.r_grid (clicked x y)) k = 0%Z) /\
  answered 0 1 10 3 (weights (WidgetModel.r_grid (clicked x y)))
    {| r_x := [(IZR c + 1 / 2) * ((1 - 0) / IZR (3 - 1)) + 0]; r_pdf := [IZR n / IZR n]; r_chips := IZR n; PoolModel.r_grid := ((0, 1), (10, 3)%Z) |}.
Proof.
  intros Y Fx Cy Hc Hn. assert (G : WidgetModel.r_grid (clicked x y) = click (new_grid 10 3) true x y) by reflexivity.
  assert (W : forall k, weights (WidgetModel.r_grid (clicked x y)) k = if Z.eqb k c then n else 0%Z).
  { intro k. rewrite G. unfold click. cbn [nrows ncols new_grid weights coll]. rewrite Fx, Cy.
    replace (_ && _ && _ && _)%bool with true by (symmetry; rewrite !andb_true_iff, !Z.leb_le, Z.ltb_lt; lia).
    destruct (Z.leb_spec n 0); [lia|]. cbn [weights]. unfold set_weight. reflexivity. }
  split; [rewrite W, Z.eqb_refl; reflexivity|]. split; [intros k K; rewrite W; destruct (Z.eqb_spec k c); [contradiction | reflexivity]|].
  assert (I : filter nonzero (weight_items (WidgetModel.r_grid (clicked x y))) = [(c, n)] /\ fold_right Z.add 0%Z (map snd (weight_items (WidgetModel.r_grid (clicked x y)))) = n).
  { unfold weight_items. replace (ncols (WidgetModel.r_grid (clicked x y))) with 3%Z by (rewrite G, click_ncols; reflexivity).
    change (range0 3) with [0; 1; 2]%Z. cbn [map]. rewrite !W. assert (c = 0 \/ c = 1 \/ c = 2)%Z as [-> | [-> | ->]] by lia; cbn [Z.eqb Pos.eqb filter nonzero snd negb map fold_right].
    all: unfold nonzero; cbn [snd]; destruct (Z.eqb_spec n 0); [lia|]; cbn; split; [reflexivity | lia]. }
  destruct I as [I1 I2].
  assert (P : exists p, weights_to_pdf (WidgetModel.r_grid (clicked x y)) 0 1 = Ok p /\ x_vals p = [(IZR c + 1 / 2) * ((1 - 0) / IZR (3 - 1)) + 0] /\ epdf p = [IZR n / IZR n] /\ filled p = 1%nat).
  { unfold weights_to_pdf. rewrite I1, I2. replace (ncols (WidgetModel.r_grid (clicked x y))) with 3%Z by (rewrite G, click_ncols; reflexivity). cbn [Z.eqb Z.sub Z.add Z.opp Z.pos_sub Pos.eqb].
    replace (3 - 1 =? 0)%Z with false by reflexivity. destruct (Z.eqb_spec n 0); [lia|]. cbn [andb]. eexists. split; [reflexivity|]. cbn [x_vals epdf filled map fst snd List.length]. auto. }
  destruct P as (p & P & X & E & Fi).
  exists string, no_fit, 0, 1, 10%Z, 3%Z, None, ""%string, [RPress true x y], [], (clicked x y),
    (r_result string (clicked x y) None (Some (inputs_of string (clicked x y) p)) Blank), (inputs_of string (clicked x y) p).
  split; [constructor; [exact Y | constructor]|]. split; [reflexivity|]. split; [reflexivity|]. split; [reflexivity|].
  split; [rewrite G, click_nrows; reflexivity|]. split; [rewrite G, click_ncols; reflexivity|]. split; [reflexivity|].
  split; [cbn [rstep]; unfold on_leave_fig; change (l_min (clicked x y)) with 0; change (l_max (clicked x y)) with 1; rewrite P, Fi; reflexivity|].
  split; [reflexivity|]. unfold inputs_of. cbn [i_x i_pdf i_chips i_min i_max i_rows i_cols]. rewrite X, E. unfold chips. rewrite I2.
  change (l_min (clicked x y)) with 0. change (l_max (clicked x y)) with 1. rewrite G, click_nrows, click_ncols. reflexivity.
Qed.
(** Experts with the same weight do not count the same: the opinion of whoever places nine chips on one column counts nine times that of whoever places one chip on
    another, although both report that they are certain. *)
Theorem C85_equal_weights_refuted : exists h1 h2 r1 r2 p,
  answered 0 1 10 3 h1 r1 /\ answered 0 1 10 3 h2 r2 /\ r_x r1 = [1 / 4] /\ r_pdf r1 = [1] /\ r_x r2 = [3 / 4] /\ r_pdf r2 = [1] /\
  combine_roulette [r1; r2] (Some [1 / 2; 1 / 2]) = Ok p /\ mass_at (1 / 4) (p_x p) (p_pdf p) = 1 / 10 /\ mass_at (3 / 4) (p_x p) (p_pdf p) = 9 / 10.
Proof.
  destruct (clicked_answer (1 # 2) (1 # 2) 0 1) as (W1 & N1 & A1); [reflexivity | reflexivity | reflexivity | lia | lia|].
  destruct (clicked_answer (3 # 2) (17 # 2) 1 9) as (W2 & N2 & A2); [reflexivity | reflexivity | reflexivity | lia | lia|].
  set (h1 := weights _) in A1. set (h2 := weights _) in A2. fold h1 in W1, N1. fold h2 in W2, N2. clearbody h1 h2.
  match type of A1 with answered _ _ _ _ _ ?r => set (r1 := r) in A1 end. match type of A2 with answered _ _ _ _ _ ?r => set (r2 := r) in A2 end.
  assert (B1 : r_x r1 = [1 / 4] /\ r_pdf r1 = [1]) by (unfold r1; cbn [r_x r_pdf]; change (3 - 1)%Z with 2%Z; split; f_equal; lra).
  assert (B2 : r_x r2 = [3 / 4] /\ r_pdf r2 = [1]) by (unfold r2; cbn [r_x r_pdf]; change (3 - 1)%Z with 2%Z; split; f_equal; lra).
  assert (T1 : all_chips 3 h1 = 1) by (unfold all_chips; change (columns 3) with [0; 1; 2]%Z; cbn [map fold_right]; rewrite W1, !N1 by lia; lra).
  assert (T2 : all_chips 3 h2 = 9) by (unfold all_chips; change (columns 3) with [0; 1; 2]%Z; cbn [map fold_right]; rewrite W2, !N2 by lia; lra).
  assert (T : weighted [h1; h2] [1 / 2; 1 / 2] (all_chips 3) = 5) by (unfold weighted; cbn [combine map fold_right fst snd]; rewrite T1, T2; lra).
  destruct (C85_chips 0 1 10 3 [h1; h2] [r1; r2] [1 / 2; 1 / 2]) as (p & E & _ & _ & _ & _ & M); [lra | lia | repeat constructor; assumption | repeat constructor; lra | rewrite T; lra|].
  exists h1, h2, r1, r2, p. split; [exact A1|]. split; [exact A2|]. split; [apply B1|]. split; [apply B1|]. split; [apply B2|]. split; [apply B2|]. split; [exact E|].
  assert (V0 : column_value 0 1 3 0 = 1 / 4) by (unfold column_value; change (3 - 1)%Z with 2%Z; lra).
  assert (V1 : column_value 0 1 3 1 = 3 / 4) by (unfold column_value; change (3 - 1)%Z with 2%Z; lra).
  rewrite <- V0 at 1. rewrite <- V1 at 1. rewrite !M by lia. rewrite T. unfold weighted. cbn [combine map fold_right fst snd]. rewrite W1, W2, !N1, !N2 by lia. split; lra.
Qed.
(** Three boards, one of them empty. *)
Example C85_case : exists hs rs, Forall2 (answered 0 1 10 3) hs rs /\ 0 < weighted hs [2; 1; 1] (all_chips 3) /\
  map (stacked hs) [0; 1; 2]%Z = [1; 9; 0]%Z /\ exists h c, In h hs /\ (0 <= c < 3)%Z /\ (0 < h c)%Z.
Proof.
  destruct (clicked_answer (1 # 2) (1 # 2) 0 1) as (W1 & N1 & A1); [reflexivity | reflexivity | reflexivity | lia | lia|].
  destruct (clicked_answer (3 # 2) (17 # 2) 1 9) as (W2 & N2 & A2); [reflexivity | reflexivity | reflexivity | lia | lia|].
  assert (A3 : exists r, answered 0 1 10 3 (fun _ => 0%Z) r).
  { set (s := new_roulette string 0 1 10 3 None "").
    assert (I1 : filter nonzero (weight_items (WidgetModel.r_grid s)) = []) by reflexivity.
    assert (I2 : fold_right Z.add 0%Z (map snd (weight_items (WidgetModel.r_grid s))) = 0%Z) by reflexivity.
    assert (P : exists p, weights_to_pdf (WidgetModel.r_grid s) 0 1 = Ok p /\ filled p = 0%nat).
    { unfold weights_to_pdf. rewrite I1, I2. change (ncols (WidgetModel.r_grid s)) with 3%Z. replace (3 - 1 =? 0)%Z with false by reflexivity. eexists. split; [reflexivity | reflexivity]. }
    destruct P as (p & P & Fi). eexists.
    exists string, no_fit, 0, 1, 10%Z, 3%Z, None, ""%string, [], [], s, (r_result string s None (Some (inputs_of string s p)) Blank), (inputs_of string s p).
    split; [constructor|]. split; [reflexivity|]. split; [reflexivity|]. split; [reflexivity|]. split; [reflexivity|]. split; [reflexivity|]. split; [reflexivity|].
    split; [cbn [rstep]; unfold on_leave_fig; change (l_min s) with 0; change (l_max s) with 1; rewrite P, Fi; reflexivity|]. split; reflexivity. }
  destruct A3 as (r3 & A3).
  eexists [_; _; _], [_; _; _]. split; [constructor; [exact A1|]; constructor; [exact A2|]; constructor; [exact A3 | constructor]|]. clear A1 A2 A3.
  set (h1 := weights _) in *. set (h2 := weights (WidgetModel.r_grid (clicked (3 # 2) _))) in *. clearbody h1 h2. split; [|split].
  - unfold weighted, all_chips. change (columns 3) with [0; 1; 2]%Z. cbn [combine map fold_right fst snd]. rewrite W1, W2, !N1, !N2 by lia. lra.
  - unfold stacked. cbn [map fold_right]. rewrite W1, W2, !N1, !N2 by lia. reflexivity.
  - exists h1, 0%Z. split; [left; reflexivity|]. lia.
Qed.

Print Assumptions C85_chips.
Print Assumptions C85_stacked.
Print Assumptions C85_no_chips.
Print Assumptions C85_equal_weights_refuted.
