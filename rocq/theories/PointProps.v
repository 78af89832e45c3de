(** C65. *)
From Coq Require Import Reals List String Bool Lia Lra Arith.
From Verif Require Import Base XR LawModel PointModel.
Import ListNotations.
Local Open Scope string_scope.
Local Open Scope list_scope.
Local Open Scope R_scope.

(** The intervals of a source, by name. *)
Definition named_interval (src : source) (name : string) : R -> res (xr * xr) :=
  if String.eqb name "eti" then eti_of src else hdi_of src.
Definition below (a b : xr) : Prop := xltb a b = true.

(** Two levels: the interval of the first level is the thick line, that of the second the thin one, and the dot is the
    median, whichever of the two kinds of interval is asked for. *)
Theorem C65_two_levels : forall ci_kind ci_prob src name m1 m2 l1 u1 l2 u2, name = "hdi" \/ name = "eti" ->
  named_interval src name m1 = Ok (l1, u1) -> named_interval src name m2 = Ok (l2, u2) -> below l1 u1 -> below l2 u2 ->
  point_interval ci_kind ci_prob src (Some name) (Some [m1; m2]) = Ok [Seg Thin l2 u2; Seg Thick l1 u1; Dot (median_of src)].
Proof.
  intros ci_kind ci_prob src name m1 m2 l1 u1 l2 u2 N E1 E2 B1 B2. unfold point_interval, points, named_interval in *.
  destruct N as [->| ->]; cbn [String.eqb Ascii.eqb Bool.eqb List.length existsb Nat.eqb orb bind intervals] in *; rewrite E1; cbn [bind fst snd]; rewrite E2;
    cbn [bind fst snd List.length Nat.eqb Nat.ltb Nat.leb sub_interval last tl removelast]; unfold below in *; rewrite B1, B2; reflexivity.
Qed.

(** One level: only the thick line and the dot. *)
Theorem C65_one_level : forall ci_kind ci_prob src name m l u, name = "hdi" \/ name = "eti" ->
  named_interval src name m = Ok (l, u) -> below l u ->
  point_interval ci_kind ci_prob src (Some name) (Some [m]) = Ok [Seg Thick l u; Dot (median_of src)].
Proof.
  intros ci_kind ci_prob src name m l u N E B. unfold point_interval, points, named_interval in *.
  destruct N as [->| ->]; cbn [String.eqb Ascii.eqb Bool.eqb List.length existsb Nat.eqb orb bind intervals] in *; rewrite E;
    cbn [bind fst snd List.length Nat.eqb Nat.ltb Nat.leb sub_interval last tl removelast]; unfold below in *; rewrite B; reflexivity.
Qed.

(** Quantiles: the outermost pair is the thin line, the next the thick one and the one in the middle the dot. *)
Theorem C65_quantiles : forall ci_kind ci_prob src,
  let draw := fun l => point_interval ci_kind ci_prob src (Some "quantiles") (Some l) in
  let q := quantile src in
  (forall a b c d e, below (q a) (q e) -> below (q b) (q d) -> draw [a; b; c; d; e] = Ok [Seg Thin (q a) (q e); Seg Thick (q b) (q d); Dot (q c)]) /\
  (forall b c d, below (q b) (q d) -> draw [b; c; d] = Ok [Seg Thick (q b) (q d); Dot (q c)]) /\
  (forall c, draw [c] = Ok [Dot (q c)]) /\
  draw [] = Ok [].
Proof.
  intros ci_kind ci_prob src draw q. subst draw q. unfold below, point_interval, points.
  repeat split; intros; cbn -[xltb]; repeat match goal with H : xltb _ _ = true |- _ => rewrite H; clear H end; reflexivity.
Qed.

(** Any other number of levels is rejected. *)
Theorem C65_number_of_levels : forall ci_kind ci_prob src name l,
  (name = "quantiles" -> ~ In (List.length l) [5; 3; 1; 0]%nat -> point_interval ci_kind ci_prob src (Some name) (Some l) = Err ValueError) /\
  (name <> "quantiles" -> ~ In (List.length l) [2; 1]%nat -> point_interval ci_kind ci_prob src (Some name) (Some l) = Err ValueError).
Proof.
  assert (N : forall n ns, ~ In n ns -> existsb (Nat.eqb n) ns = false).
  { intros n ns H. apply not_true_is_false. rewrite existsb_exists. intros [x [Hx E]]. apply Nat.eqb_eq in E. subst x. auto. }
  intros ci_kind ci_prob src name l. split; intros E H; apply N in H; unfold point_interval, points.
  - subst name. rewrite String.eqb_refl, H. reflexivity.
  - apply String.eqb_neq in E. rewrite E, H. reflexivity.
Qed.

(** What is left out comes from the settings. *)
Theorem C65_defaults : forall ci_kind ci_prob src levels,
  point_interval ci_kind ci_prob src None levels = point_interval ci_kind ci_prob src (Some ci_kind) levels /\
  (forall name, name <> "quantiles" -> point_interval ci_kind ci_prob src (Some name) None = point_interval ci_kind ci_prob src (Some name) (Some [1 / 2; ci_prob])) /\
  point_interval ci_kind ci_prob src (Some "quantiles") None = point_interval ci_kind ci_prob src (Some "quantiles") (Some [5 / 100; 25 / 100; 1 / 2; 75 / 100; 95 / 100]).
Proof.
  intros. split; [reflexivity|]. split; [|reflexivity]. intros name H. unfold point_interval, points. apply String.eqb_neq in H. rewrite H. reflexivity.
Qed.

(** The points covered by the lines of one width. *)
Definition on (w : width) (x : R) (m : mark) : Prop :=
  match m with Seg w' (Fin a) (Fin b) => w' = w /\ a <= x <= b | _ => False end.
Definition covered (w : width) (x : R) (ms : list mark) : Prop := exists m, In m ms /\ on w x m.

(** An interval that wraps around the circle (that of a VonMises whose mode is near the ends): the thick line covers
    exactly the points of the circle going up from the first end to the second. *)
Theorem C65_circular : forall ci_kind ci_prob src name m l u, name = "hdi" \/ name = "eti" ->
  named_interval src name m = Ok (Fin l, Fin u) -> - PI <= u < l -> l <= PI ->
  exists ms, point_interval ci_kind ci_prob src (Some name) (Some [m]) = Ok ms /\
    forall x, - PI <= x <= PI -> (covered Thick x ms <-> l <= x \/ x <= u).
Proof.
  intros ci_kind ci_prob src name m l u N E H1 H2.
  exists [Seg Thick (Fin l) (Fin PI); Seg Thick (Fin (- PI)) (Fin u); Dot (median_of src)]. split.
  - assert (B : xltb (Fin l) (Fin u) = false) by (cbn; apply Rltb_false; lra).
    unfold point_interval, points, named_interval in *.
    destruct N as [->| ->]; cbn [String.eqb Ascii.eqb Bool.eqb List.length existsb Nat.eqb orb bind intervals] in *; rewrite E;
      cbn [bind fst snd List.length Nat.eqb Nat.ltb Nat.leb sub_interval last tl removelast]; rewrite B; reflexivity.
  - intros x Hx. split.
    + intros [mk [Hm O]]. destruct Hm as [<-|[<-|[<-|[]]]]; cbn in O; [left; lra|right; lra|contradiction].
    + intros [H|H]; [exists (Seg Thick (Fin l) (Fin PI)); split; [left; reflexivity|cbn; split; [reflexivity|lra]]
                    |exists (Seg Thick (Fin (- PI)) (Fin u)); split; [right; left; reflexivity|cbn; split; [reflexivity|lra]]].
Qed.

(** An interval that is a single value, as the highest density interval of a discrete distribution often is, is taken for one
    that wraps around the circle: lines are drawn from it to pi and from minus pi to it, whatever the distribution. *)
Theorem C65_single_value_refuted : forall ci_kind ci_prob src name m x, name = "hdi" \/ name = "eti" ->
  named_interval src name m = Ok (Fin x, Fin x) ->
  exists ms, point_interval ci_kind ci_prob src (Some name) (Some [m]) = Ok ms /\
    In (Seg Thick (Fin x) (Fin PI)) ms /\ In (Seg Thick (Fin (- PI)) (Fin x)) ms /\
    (- PI <= x <= PI -> forall y, - PI <= y <= PI -> covered Thick y ms).
Proof.
  intros ci_kind ci_prob src name m x N E.
  exists [Seg Thick (Fin x) (Fin PI); Seg Thick (Fin (- PI)) (Fin x); Dot (median_of src)]. repeat split.
  - assert (B : xltb (Fin x) (Fin x) = false) by (cbn; apply Rltb_false; lra).
    unfold point_interval, points, named_interval in *.
    destruct N as [->| ->]; cbn [String.eqb Ascii.eqb Bool.eqb List.length existsb Nat.eqb orb bind intervals] in *; rewrite E;
      cbn [bind fst snd List.length Nat.eqb Nat.ltb Nat.leb sub_interval last tl removelast]; rewrite B; reflexivity.
  - left; reflexivity.
  - right; left; reflexivity.
  - intros Hx y Hy. destruct (Rle_lt_dec x y).
    + exists (Seg Thick (Fin x) (Fin PI)). split; [left; reflexivity|cbn; split; [reflexivity|lra]].
    + exists (Seg Thick (Fin (- PI)) (Fin x)). split; [right; left; reflexivity|cbn; split; [reflexivity|lra]].
Qed.

(** The interval of half the mass of a distribution that is 0 with probability 9/10 and 1 otherwise is such a value. *)
Example C65_single_value_case : discrete_hdi (1 / 2) [(0%Z, 9 / 10); (1%Z, 1 / 10)] = Ok (0%Z, 0%Z).
Proof.
  unfold discrete_hdi. cbn [hdi_take]. replace (Rleb (1 / 2) (0 + 9 / 10)) with true; [reflexivity|].
  symmetry. apply Rleb_true. lra.
Qed.

(** With quantiles the dot is the middle one of the list: it is not the median unless that level is a half. *)
Theorem C65_dot_is_median_refuted : exists src a b c, a < b < c /\
  point_interval "hdi" (94 / 100) src (Some "quantiles") (Some [a; b; c]) = Ok [Seg Thick (Fin a) (Fin c); Dot (Fin b)] /\ median_of src <> Fin b.
Proof.
  exists {| quantile := Fin; hdi_of := fun _ => Err ValueError; eti_of := fun _ => Err ValueError; median_of := Fin (1 / 2) |}, (1 / 10), (2 / 10), (3 / 10).
  split; [lra|]. split.
  - apply (C65_quantiles "hdi" (94 / 100)
      {| quantile := Fin; hdi_of := fun _ => Err ValueError; eti_of := fun _ => Err ValueError; median_of := Fin (1 / 2) |}).
    cbn. apply Rltb_true. lra.
  - cbn. intros E. inversion E. lra.
Qed.

(** Concrete cases: a uniform distribution on the unit interval. *)
Definition uniform : source :=
  {| quantile := Fin; hdi_of := fun m => Ok (Fin ((1 - m) / 2), Fin ((1 + m) / 2)); eti_of := fun m => Ok (Fin ((1 - m) / 2), Fin ((1 + m) / 2)); median_of := Fin (1 / 2) |}.
Example C65_two_levels_case : named_interval uniform "eti" (1 / 2) = Ok (Fin ((1 - 1 / 2) / 2), Fin ((1 + 1 / 2) / 2)) /\
  below (Fin ((1 - 1 / 2) / 2)) (Fin ((1 + 1 / 2) / 2)).
Proof. split; [reflexivity|]. cbn. apply Rltb_true. lra. Qed.
Example C65_quantiles_case : below (quantile uniform (1 / 4)) (quantile uniform (3 / 4)).
Proof. cbn. apply Rltb_true. lra. Qed.
Example C65_circular_case : - PI <= -3 < 3 /\ 3 <= PI.
Proof. assert (3 < PI) by (pose proof PI2_3_2; unfold PI2 in *; lra). lra. Qed.

Print Assumptions C65_two_levels.
Print Assumptions C65_one_level.
Print Assumptions C65_quantiles.
Print Assumptions C65_number_of_levels.
Print Assumptions C65_defaults.
Print Assumptions C65_circular.
Print Assumptions C65_single_value_refuted.
Print Assumptions C65_dot_is_median_refuted.
