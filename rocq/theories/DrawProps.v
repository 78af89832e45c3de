(** C64. *)
From Coq Require Import Reals List String Bool Lia Lra Arith.
From Verif Require Import Base XR LawModel ExploreModel ExploreProofs DrawModel DrawSpec.
Import ListNotations.
Local Open Scope string_scope.
Local Open Scope list_scope.

Lemma size_atleast : forall v, List.length (atleast_1d v) = size v.
Proof. intros [x|x|l]; reflexivity. Qed.

Lemma join_fits : forall a n, (a = 1 \/ a = n)%nat -> forall m, (m = 1 \/ m = n)%nat ->
  exists k, join_dims a m = Ok k /\ (k = 1 \/ k = n)%nat /\ (a = n -> k = n)%nat /\ (m = n -> k = n)%nat /\ (a = 1 -> m = 1 -> k = 1)%nat.
Proof.
  intros a n Ha m Hm. unfold join_dims.
  destruct (Nat.eqb_spec a m); [exists a; repeat split; intros; lia|].
  destruct (Nat.eqb_spec a 1); [exists m; repeat split; intros; lia|].
  destruct (Nat.eqb_spec m 1); [exists a; repeat split; intros; lia|]. lia.
Qed.

Lemma dim_fits : forall n vs, (forall v, In v vs -> size v = 1 \/ size v = n)%nat ->
  exists k, broadcast_dim (map atleast_1d vs) = Ok k /\ (k = 1 \/ k = n)%nat /\ ((exists v, In v vs /\ size v = n) -> k = n)%nat.
Proof.
  induction vs as [|v vs IH]; intros H.
  - exists 1%nat. repeat split; [lia|]. intros [v [[] _]].
  - destruct IH as [k [E [K1 K2]]]; [intros; apply H; right; assumption|].
    destruct (join_fits (size v) n (H v (or_introl eq_refl)) k K1) as [k' [E' [A [B [C _]]]]].
    exists k'. cbn [map broadcast_dim]. rewrite E. cbn [bind]. rewrite size_atleast, E'. repeat split; [exact A|].
    intros [w [[->|Hw] Sw]]; [apply B; exact Sw | apply C; apply K2; exists w; auto].
Qed.

Lemma dim_combine : forall n vs, combine_to n vs -> broadcast_dim (map atleast_1d vs) = Ok n.
Proof.
  intros n vs [H [->|X]]; destruct (dim_fits _ _ H) as [k [E [K1 K2]]]; rewrite E; f_equal; [lia | apply K2; exact X].
Qed.

Lemma join_err_or : forall a b k, join_dims a b = Ok k -> (a = 1 \/ a = k)%nat /\ (b = 1 \/ b = k)%nat.
Proof.
  intros a b k. unfold join_dims. destruct (Nat.eqb_spec a b), (Nat.eqb_spec a 1), (Nat.eqb_spec b 1); intros E; inversion E; subst; lia.
Qed.
Lemma dim_ok : forall vs k, broadcast_dim (map atleast_1d vs) = Ok k -> forall v, In v vs -> (size v = 1 \/ size v = k)%nat.
Proof.
  induction vs as [|v vs IH]; intros k E w Hw; [destruct Hw|].
  cbn [map broadcast_dim] in E. destruct (broadcast_dim (map atleast_1d vs)) as [m|] eqn:Em; [|discriminate].
  cbn [bind] in E. rewrite size_atleast in E. destruct (join_err_or _ _ _ E) as [A B].
  destruct Hw as [->|Hw]; [exact A|]. destruct (IH m eq_refl w Hw); [left; assumption|]. destruct B; [left|right]; lia.
Qed.
Lemma dim_err : forall ls e, broadcast_dim ls = Err e -> e = ValueError.
Proof.
  induction ls as [|l ls IH]; intros e E; [discriminate|]. cbn [broadcast_dim] in E.
  destruct (broadcast_dim ls); cbn [bind] in E; [|apply IH; exact E]. unfold join_dims in E.
  destruct (Nat.eqb _ _); [discriminate|]. destruct (Nat.eqb _ _); [discriminate|]. destruct (Nat.eqb _ _); [discriminate|]. inversion E; reflexivity.
Qed.

Lemma nth_repeat_lt : forall (A : Type) n i (x d : A), (i < n)%nat -> nth i (repeat x n) d = x.
Proof. induction n; intros [|i] x d H; cbn; [lia|lia|reflexivity|apply IHn; lia]. Qed.

Lemma stretch_entry : forall n v i, (size v = 1 \/ size v = n)%nat -> (i < n)%nat -> nth i (stretch n (atleast_1d v)) NaN = entry i v.
Proof.
  intros n [x|x|l] i H Hi; cbn [atleast_1d stretch entry]; try (apply nth_repeat_lt; exact Hi).
  destruct l as [|x [|y l]]; cbn [stretch]; [reflexivity | apply nth_repeat_lt; exact Hi | reflexivity].
Qed.

Definition row (i : nat) (params : list (string * pv)) : list (string * xr) := map (fun kv => (fst kv, entry i (snd kv))) params.

Lemma unpack_rows : forall params n, params <> [] -> combine_to n (map snd params) ->
  unpack params = Ok (map (fun i => row i params) (seq 0 n)).
Proof.
  intros params n Hne H. destruct params as [|p ps]; [congruence|].
  unfold unpack. rewrite <- (map_map snd atleast_1d (p :: ps)), (dim_combine _ _ H). cbn [bind]. f_equal.
  apply map_ext_in. intros i Hi. apply in_seq in Hi. unfold row. apply map_ext_in. intros kv Hkv. f_equal.
  apply stretch_entry; [|lia]. apply (proj1 H). apply in_map. exact Hkv.
Qed.

(** An array-valued parametrization is split into the combinations its values broadcast to, in order, each with the values
    of every parameter. *)
Theorem C64_combinations : forall params n, params <> [] -> combine_to n (map snd params) ->
  exists rows, unpack params = Ok rows /\ List.length rows = n /\
    forall i, (i < n)%nat -> option_map scalars (nth_error rows i) = Some (combination i params).
Proof.
  intros params n Hne H. exists (map (fun i => row i params) (seq 0 n)). split; [apply unpack_rows; assumption|].
  split; [rewrite map_length, seq_length; reflexivity|]. intros i Hi.
  rewrite nth_error_map, (nth_error_nth' _ 0%nat), seq_nth; [|exact Hi|rewrite seq_length; exact Hi].
  cbn [option_map]. f_equal. unfold scalars, row, combination. rewrite map_map. reflexivity.
Qed.

(** Shapes that do not broadcast are rejected. *)
Theorem C64_incompatible : forall params, cannot_combine (map snd params) -> unpack params = Err ValueError.
Proof.
  intros params [a [b [Ha [Hb [A [B AB]]]]]]. destruct params as [|p ps]; [destruct Ha|].
  unfold unpack. rewrite <- (map_map snd atleast_1d (p :: ps)).
  destruct (broadcast_dim (map atleast_1d (map snd (p :: ps)))) as [k|e] eqn:E.
  - pose proof (dim_ok _ _ E a Ha). pose proof (dim_ok _ _ E b Hb). lia.
  - apply dim_err in E. subst e. reflexivity.
Qed.

(** The check of the other methods: it lets a distribution through exactly when it is defined and is multivariate, one of
    the two families whose parameters are not numbers, or has only plain numbers; anything else is a ValueError. *)
Theorem C64_guard : forall frozen kind name params,
  let ok := frozen = true /\ ((kind <> "discrete" /\ kind <> "continuous") \/ name = "Categorical" \/ name = "Mixture" \/
                              forall v, In v params -> exists x, v = Num x) in
  (ok -> valid_scalar_params frozen kind name params true true = Ok true) /\
  (~ ok -> valid_scalar_params frozen kind name params true true = Err ValueError).
Proof.
  intros frozen kind name params ok.
  assert (P : forallb plain_number params = true <-> forall v, In v params -> exists x, v = Num x).
  { rewrite forallb_forall. split; intros H v Hv; specialize (H v Hv).
    - destruct v as [x|x|l]; try discriminate. exists x; reflexivity.
    - destruct H as [x ->]; reflexivity. }
  unfold valid_scalar_params, ok. cbn [existsb]. destruct frozen; cbn [negb].
  2:{ split; [intros [D _]; discriminate | reflexivity]. }
  destruct (String.eqb_spec kind "discrete"), (String.eqb_spec kind "continuous"), (String.eqb_spec name "Categorical"), (String.eqb_spec name "Mixture"),
    (forallb plain_number params); cbn [orb negb]; split; intros H; try reflexivity;
  try (exfalso; apply H; split; [reflexivity|]; tauto).
  all: destruct H as [_ [[]|[|[|H]]]]; try congruence; apply P in H; discriminate.
Qed.


Lemma drawn_with_user : forall lk kw k v, getkw k kw = Some v -> getkw k (snd (drawn_with lk kw)) = Some v.
Proof.
  intros lk kw k v H. destruct lk; cbn [drawn_with snd]; try exact H. cbn [getkw].
  destruct (String.eqb_spec "ls" k) as [<-|N1]; [rewrite H; reflexivity|].
  destruct (String.eqb_spec "marker" k) as [<-|N2]; [rewrite H; reflexivity|].
  rewrite !getkw_pop_neq by congruence. exact H.
Qed.

(** A distribution with plain parameters is drawn once, as it is, with every keyword the user passed. *)
Theorem C64_scalar_draws_once : forall kind name lk s o kw, (forall v, In v (map snd (o_params o)) -> exists x, v = Num x) ->
  exists used, plot_pdf true kind name lk s o kw = Ok (s, [(view s o, used)]) /\
    forall k v, getkw k kw = Some v -> getkw k used = Some v.
Proof.
  intros kind name lk s o kw H. unfold plot_pdf.
  assert (V : valid_scalar_params true kind name (map snd (o_params o)) true false = Ok true).
  { unfold valid_scalar_params. cbn [negb]. destruct (negb _); [reflexivity|].
    replace (forallb plain_number (map snd (o_params o))) with true; [reflexivity|].
    symmetry. apply forallb_forall. intros v Hv. destruct (H v Hv) as [x ->]. reflexivity. }
  rewrite V. cbn [bind]. eexists. split; [reflexivity|]. intros k v Hk. apply drawn_with_user. exact Hk.
Qed.

(** A distribution that has not been defined is not drawn. *)
Theorem C64_undefined : forall kind name lk s o kw, plot_pdf false kind name lk s o kw = Err ValueError.
Proof. reflexivity. Qed.

Definition array_valued (vs : list pv) : Prop := exists l, In (Arr l) vs.

Lemma array_not_scalar : forall kind name vs, (kind = "discrete" \/ kind = "continuous") -> name <> "Categorical" -> name <> "Mixture" ->
  array_valued vs -> valid_scalar_params true kind name vs true false = Ok false.
Proof.
  intros kind name vs K N1 N2 [l Hl]. unfold valid_scalar_params. cbn [negb existsb].
  replace (forallb plain_number vs) with false.
  2:{ symmetry. apply not_true_is_false. rewrite forallb_forall. intros F. specialize (F _ Hl). discriminate. }
  apply String.eqb_neq in N1, N2. rewrite N1, N2. cbn [orb].
  destruct K as [->| ->]; reflexivity.
Qed.

(** Curves of a family. *)
Lemma rows_family : forall lk s params own kw rows,
  let out := plot_rows lk s {| o_params := params; o_own := own; o_base := None |} kw rows in
  fst out = s /\ map fst (snd out) = map (fun r => (scalars r, None)) rows /\
  (forall c, In c (snd out) -> forall k v, k <> "ls" -> k <> "marker" -> getkw k kw = Some v -> getkw k (snd c) = Some v) /\
  (lk <> Dots -> forall c, In c (snd out) -> snd c = kw).
Proof.
  intros lk s params own kw rows. revert s kw. induction rows as [|r rows IH]; intros s kw out.
  - repeat split; intros; contradiction.
  - subst out. cbn [plot_rows reparam o_base].
    destruct (drawn_with lk kw) as [kw1 used] eqn:D.
    specialize (IH s kw1). cbn zeta in IH.
    destruct (plot_rows lk s _ kw1 rows) as [s2 cs] eqn:E. cbn [fst snd] in IH |- *. destruct IH as [I1 [I2 [I3 I4]]].
    split; [exact I1|]. split; [cbn [map fst]; f_equal; exact I2|].
    assert (K1 : forall k v, k <> "ls" -> k <> "marker" -> getkw k kw = Some v -> getkw k kw1 = Some v).
    { intros k v N1 N2 H. destruct lk; cbn [drawn_with] in D; inversion D; subst; try exact H. rewrite !getkw_pop_neq by congruence. exact H. }
    split.
    + intros c [<-|Hc] k v N1 N2 H.
      * cbn [snd]. replace used with (snd (drawn_with lk kw)) by (rewrite D; reflexivity). apply drawn_with_user; exact H.
      * apply (I3 c Hc k v N1 N2). apply K1; assumption.
    + intros NL c [<-|Hc].
      * cbn [snd]. destruct lk; [| congruence |]; cbn [drawn_with] in D; inversion D; reflexivity.
      * rewrite (I4 NL c Hc). destruct lk; [| congruence |]; cbn [drawn_with] in D; inversion D; reflexivity.
Qed.

(** A family with array parameters: one curve for each combination, in order, each that of the distribution with those
    numbers; every keyword reaches every curve, apart from the line style and the marker of discrete families; and the
    program is left as it was. *)
Theorem C64_family_curves : forall kind name lk s params own kw n, (kind = "discrete" \/ kind = "continuous") ->
  name <> "Categorical" -> name <> "Mixture" -> array_valued (map snd params) -> combine_to n (map snd params) ->
  exists cs, plot_pdf true kind name lk s {| o_params := params; o_own := own; o_base := None |} kw = Ok (s, cs) /\
    map fst cs = map (fun i => (combination i params, None)) (seq 0 n) /\
    (forall c, In c cs -> forall k v, (lk <> Dots \/ (k <> "ls" /\ k <> "marker")) -> getkw k kw = Some v -> getkw k (snd c) = Some v).
Proof.
  intros kind name lk s params own kw n K N1 N2 A C. unfold plot_pdf. cbn [o_params].
  rewrite (array_not_scalar _ _ _ K N1 N2 A). cbn [bind].
  rewrite (unpack_rows params n); [|destruct A as [l Hl]; intros ->; destruct Hl|exact C]. cbn [bind].
  pose proof (rows_family lk s params own kw (map (fun i => row i params) (seq 0 n))) as R. cbn zeta in R.
  destruct (plot_rows _ _ _ _ _) as [s2 cs]. cbn [fst snd] in R. destruct R as [R1 [R2 [R3 R4]]]. subst s2.
  exists cs. split; [reflexivity|]. split.
  - rewrite R2, map_map. apply map_ext. intros i. f_equal. unfold scalars, row, combination. rewrite map_map. reflexivity.
  - intros c Hc k v [NL|[M1 M2]] H; [rewrite (R4 NL c Hc); exact H | apply (R3 c Hc k v M1 M2 H)].
Qed.

(** Curves of a modifier. *)
Lemma last_cons : forall (A : Type) (l : list A) a d, last (a :: l) d = last l a.
Proof. induction l as [|b l IH]; intros a d; [reflexivity|]. change (last (a :: b :: l) d) with (last (b :: l) d). rewrite !IH. reflexivity. Qed.
Lemma scalars_filter : forall own r, scalars (filter (fun p => negb (existsb (String.eqb (fst p)) own)) r) = without own (scalars r).
Proof.
  intros own. induction r as [|x r IH]; [reflexivity|]. unfold scalars, without in *. cbn [filter map fst].
  destruct (negb _); cbn [map fst snd]; [f_equal|]; exact IH.
Qed.
Lemma rows_modifier : forall lk params own l kw rows s,
  let out := plot_rows lk s {| o_params := params; o_own := own; o_base := Some l |} kw rows in
  (forall l', l' <> l -> fst out l' = s l') /\
  fst out l = last (map (fun r => without own (scalars r)) rows) (s l) /\
  map fst (snd out) = map (fun r => (scalars r, Some (without own (scalars r)))) rows.
Proof.
  intros lk params own l kw rows. revert kw. induction rows as [|r rows IH]; intros kw s out.
  - repeat split.
  - subst out. cbn [plot_rows reparam o_base o_own].
    destruct (drawn_with lk kw) as [kw1 used] eqn:D.
    set (s1 := write s l _). specialize (IH kw1 s1). cbn zeta in IH.
    destruct (plot_rows lk s1 _ kw1 rows) as [s2 cs] eqn:E. cbn [fst snd] in IH |- *. destruct IH as [I1 [I2 I3]].
    assert (S1 : s1 l = without own (scalars r)) by (unfold s1, write; rewrite Nat.eqb_refl; apply scalars_filter).
    split; [|split].
    + intros l' Hl. rewrite (I1 l' Hl). unfold s1, write. apply Nat.eqb_neq in Hl. rewrite Hl. reflexivity.
    + rewrite I2, S1. cbn [map]. symmetry. apply last_cons.
    + cbn [map fst]. f_equal; [|exact I3]. unfold view. cbn [o_params o_base]. rewrite S1. reflexivity.
Qed.

(** A modifier with array parameters draws the right curves as well: each with its base distribution at the numbers of that
    combination. Nothing but the base distribution changes, and that is left at the last combination. *)
Theorem C64_modifier_curves : forall kind name lk s params own l kw n, (kind = "discrete" \/ kind = "continuous") ->
  name <> "Categorical" -> name <> "Mixture" -> array_valued (map snd params) -> combine_to n (map snd params) ->
  exists s' cs, plot_pdf true kind name lk s {| o_params := params; o_own := own; o_base := Some l |} kw = Ok (s', cs) /\
    map fst cs = map (fun i => (combination i params, Some (without own (combination i params)))) (seq 0 n) /\
    (forall l', l' <> l -> s' l' = s l') /\
    (0 < n -> s' l = without own (combination (n - 1) params))%nat.
Proof.
  intros kind name lk s params own l kw n K N1 N2 A C. unfold plot_pdf. cbn [o_params].
  rewrite (array_not_scalar _ _ _ K N1 N2 A). cbn [bind].
  rewrite (unpack_rows params n); [|destruct A as [l0 Hl]; intros ->; destruct Hl|exact C]. cbn [bind].
  pose proof (rows_modifier lk params own l kw (map (fun i => row i params) (seq 0 n)) s) as R. cbn zeta in R.
  destruct (plot_rows _ _ _ _ _) as [s2 cs]. cbn [fst snd] in R. destruct R as [R1 [R2 R3]].
  assert (S : forall i, scalars (row i params) = combination i params) by (intros i; unfold scalars, row, combination; rewrite map_map; reflexivity).
  exists s2, cs. split; [reflexivity|]. split; [|split; [exact R1|]].
  - rewrite R3, map_map. apply map_ext. intros i. rewrite S. reflexivity.
  - intros Hn. rewrite R2, map_map. destruct n as [|n]; [lia|]. rewrite seq_S, map_app. cbn [map]. rewrite last_last, S. f_equal. f_equal. lia.
Qed.

Definition truncated_normal : obj :=
  {| o_params := [("mu", Arr [Fin 0; Fin 1]); ("sigma", Num (Fin 1)); ("lower", Num (Fin (-1))); ("upper", Num (Fin 3))];
     o_own := ["lower"; "upper"]; o_base := Some 0%nat |}.

(** Truncated(Normal(mu=[0, 1], sigma=1), -1, 3): the object still says mu=[0, 1], and after it has been drawn its base
    distribution, with which it computes every density, has mu=1. The base distribution is the user's own object. *)
Theorem C64_drawing_keeps_refuted :
  exists s s' cs, plot_pdf true "continuous" "Truncated" Line s truncated_normal [] = Ok (s', cs) /\
    view s truncated_normal = (o_params truncated_normal, Some [("mu", Arr [Fin 0; Fin 1]); ("sigma", Num (Fin 1))]) /\
    view s' truncated_normal = (o_params truncated_normal, Some [("mu", Num (Fin 1)); ("sigma", Num (Fin 1))]).
Proof.
  set (s := fun _ : loc => [("mu", Arr [Fin 0; Fin 1]); ("sigma", Num (Fin 1))]).
  destruct (C64_modifier_curves "continuous" "Truncated" Line s (o_params truncated_normal) ["lower"; "upper"] 0%nat [] 2%nat) as [s' [cs [E [_ [_ L]]]]];
    [right; reflexivity | discriminate | discriminate | exists [Fin 0; Fin 1]; left; reflexivity | |].
  - split.
    + cbn. intros v H. repeat destruct H as [<-|H]; cbn; auto. contradiction.
    + right. exists (Arr [Fin 0; Fin 1]). split; [left; reflexivity|reflexivity].
  - exists s, s', cs. split; [exact E|]. split; [reflexivity|]. unfold view. cbn [truncated_normal o_base o_params].
    rewrite L by lia. reflexivity.
Qed.

(** Poisson([1, 4]).plot_pdf(ls="--"): the first curve is dashed, the second is dotted. *)
Theorem C64_discrete_style_refuted :
  exists s cs c1 c2,
    plot_pdf true "discrete" "Poisson" Dots s {| o_params := [("mu", Arr [Fin 1; Fin 4])]; o_own := []; o_base := None |} [("ls", VStr "--")] = Ok (s, cs) /\
    cs = [c1; c2] /\ getkw "ls" (snd c1) = Some (VStr "--") /\ getkw "ls" (snd c2) = Some (VStr "dotted").
Proof. exists (fun _ => []). repeat eexists. Qed.

(** A parameter that is a numpy scalar such as np.float32(1) or np.int32(3) is one number, the distribution is drawn as one
    curve, and yet the other methods refuse it. *)
Theorem C64_numpy_scalar_refuted : forall x s,
  valid_scalar_params true "continuous" "Normal" [OtherNum x; Num (Fin 1)] true true = Err ValueError /\
  exists c, plot_pdf true "continuous" "Normal" Line s {| o_params := [("mu", OtherNum x); ("sigma", Num (Fin 1))]; o_own := []; o_base := None |} [] = Ok (s, [c]).
Proof. intros x s. split; [reflexivity|]. eexists. reflexivity. Qed.

(** What [mle] draws: the candidates that were fitted among the first [plot], from the best on. *)
Theorem C64_mle_draws : forall D (frozen : D -> bool) fitted order plot d, (List.length order = List.length fitted)%nat ->
  (In d (mle_drawn frozen fitted order plot) <->
   exists rank i, (rank < plot)%nat /\ nth_error order rank = Some i /\ nth_error fitted i = Some d /\ frozen d = true).
Proof.
  intros D frozen fitted order plot d L. unfold mle_drawn. rewrite in_flat_map. split.
  - intros [i [Hi Hd]]. apply In_nth_error in Hi. destruct Hi as [r Hr].
    assert (R : (r < Nat.min plot (List.length fitted))%nat).
    { assert (r < List.length (firstn (Nat.min plot (List.length fitted)) order))%nat by (apply nth_error_Some; congruence). rewrite firstn_length in *. lia. }
    rewrite <- (firstn_skipn (Nat.min plot (List.length fitted)) order) in *.
    exists r, i. split; [lia|]. split.
    + rewrite nth_error_app1; [rewrite firstn_skipn in Hr; exact Hr|]. apply nth_error_Some. rewrite firstn_skipn in Hr. congruence.
    + destruct (nth_error fitted i) as [d'|]; [|destruct Hd]. destruct (frozen d') eqn:F; [|destruct Hd]. destruct Hd as [->|[]]. auto.
  - intros [r [i [Hr [Ho [Hf F]]]]]. exists i. split.
    + apply (nth_error_In _ r). rewrite <- Ho. assert (Lr : (r < List.length order)%nat) by (apply nth_error_Some; congruence).
      clear -Hr Lr L. rewrite <- (firstn_skipn (Nat.min plot (List.length fitted)) order) at 2.
      rewrite nth_error_app1; [reflexivity|]. rewrite firstn_length. lia.
    + rewrite Hf, F. left; reflexivity.
Qed.

Lemma is_prefix_spec a : forall b, is_prefix a b = true <-> exists r, b = String.append a r.
Proof.
  induction a as [|x a IH]; intro b; cbn [is_prefix String.append].
  - split; [intros _; exists b; reflexivity | destruct b; reflexivity].
  - destruct b as [|y b]; [split; [discriminate | intros [r H]; discriminate]|].
    rewrite andb_true_iff, IH, Ascii.eqb_eq. split.
    + intros [-> [r ->]]. exists r. reflexivity.
    + intros [r H]. injection H as -> ->. eauto.
Qed.
Lemma substring_spec a : forall b, substring a b = true <-> exists l r, b = String.append l (String.append a r).
Proof.
  induction b as [|y b IH]; cbn [substring]; rewrite orb_true_iff, is_prefix_spec.
  - split.
    + intros [[r H]|H]; [exists EmptyString, r; exact H | discriminate].
    + intros (l & r & H). left. destruct l; [exists r; exact H | discriminate].
  - rewrite IH. split.
    + intros [[r H]|(l & r & H)]; [exists EmptyString, r; exact H | exists (String y l), r; rewrite H; reflexivity].
    + intros (l & r & H). destruct l as [|z l]; [left; exists r; exact H|]. right. injection H as -> H. exists l, r. exact H.
Qed.
Definition of_the_letters (k : string) : Prop := exists before after, "mdvsk"%string = String.append before (String.append k after).
(** Whenever there is something to draw, a dictionary of keywords for the plot is taken by [mle] for the moments to show: it
    raises ValueError as soon as one key is not a piece of "mdvsk", as no keyword of a plot is. *)
Theorem C64_mle_plot_kwargs_refuted :
  (forall D (frozen : D -> bool) fitted order plot kw, mle_drawn frozen fitted order plot <> [] ->
     (mle_plot frozen fitted order plot (Some kw) = Err ValueError <-> exists k, In k (map fst kw) /\ ~ of_the_letters k) /\
     (mle_plot frozen fitted order plot (Some kw) = Ok (mle_drawn frozen fitted order plot) <-> forall k, In k (map fst kw) -> of_the_letters k)) /\
  (forall k, In k ["color"; "alpha"; "lw"; "ls"; "linewidth"; "legend"; "marker"; "label"; "ax"; "figsize"; "support"; "pointinterval"; "moments"] ->
     ~ of_the_letters k).
Proof.
  split.
  - intros D frozen fitted order plot kw H. unfold mle_plot. destruct (mle_drawn _ _ _ _) as [|d ds]; [congruence|]. clear H.
    assert (M : forall ms, (moments_of ms = Err ValueError /\ exists k, In k ms /\ ~ of_the_letters k) \/
                           (moments_of ms = Ok tt /\ forall k, In k ms -> of_the_letters k)).
    { induction ms as [|m ms IH]; [right; split; [reflexivity | intros k []]|]. cbn [moments_of].
      destruct (substring m "mdvsk") eqn:E.
      - apply substring_spec in E. destruct IH as [[-> (k & I & N)]|[-> A]].
        + left. split; [reflexivity|]. exists k. split; [right; exact I | exact N].
        + right. split; [reflexivity|]. intros k [<-|I]; [exact E | exact (A k I)].
      - left. split; [reflexivity|]. exists m. split; [left; reflexivity|]. intro C. apply substring_spec in C. congruence. }
    destruct (M (map fst kw)) as [[-> (k & I & N)]|[-> A]]; cbn [bind].
    + split; split; [intros _; eauto | reflexivity | discriminate | intro A; destruct (N (A k I))].
    + split; split; [discriminate | intros (k & I & N); destruct (N (A k I)) | intros _; exact A | reflexivity].
  - intros k H C. apply substring_spec in C. revert C. repeat destruct H as [<-|H]; try discriminate. contradiction.
Qed.

(** The cases meet the hypotheses. *)
Example C64_combinations_case : combine_to 3%nat [Arr [Fin 0; Fin 1; Fin 2]; Num (Fin 5); Arr [Fin 7]].
Proof.
  split; [intros v H; repeat destruct H as [<-|H]; cbn; auto; contradiction|].
  right. exists (Arr [Fin 0; Fin 1; Fin 2]). split; [left|]; reflexivity.
Qed.
Example C64_combination_case : combination 1%nat [("mu", Arr [Fin 0; Fin 1; Fin 2]); ("sigma", Arr [Fin 7])] = [("mu", Num (Fin 1)); ("sigma", Num (Fin 7))].
Proof. reflexivity. Qed.
Example C64_incompatible_case : cannot_combine [Arr [Fin 0; Fin 1]; Arr [Fin 0; Fin 1; Fin 2]].
Proof. exists (Arr [Fin 0; Fin 1]), (Arr [Fin 0; Fin 1; Fin 2]). cbn. repeat split; auto; lia. Qed.
Example C64_guard_case : valid_scalar_params true "continuous" "Normal" [Arr [Fin 0; Fin 1]; Num (Fin 1)] true true = Err ValueError.
Proof. reflexivity. Qed.
Example C64_mle_case : mle_drawn (fun d => negb (Nat.eqb d 7)) [5; 7; 9; 4]%nat [2; 1; 0; 3]%nat 3%nat = [9; 5]%nat.
Proof. reflexivity. Qed.

Example C64_mle_kwargs_case : of_the_letters "dv" /\ ~ of_the_letters "alpha".
Proof. split; [exists "m"%string, "sk"%string; reflexivity | intro C; apply substring_spec in C; discriminate]. Qed.

Print Assumptions C64_combinations.
Print Assumptions C64_incompatible.
Print Assumptions C64_guard.
Print Assumptions C64_scalar_draws_once.
Print Assumptions C64_undefined.
Print Assumptions C64_family_curves.
Print Assumptions C64_modifier_curves.
Print Assumptions C64_drawing_keeps_refuted.
Print Assumptions C64_discrete_style_refuted.
Print Assumptions C64_numpy_scalar_refuted.
Print Assumptions C64_mle_draws.
Print Assumptions C64_mle_plot_kwargs_refuted.
