(** C84: the boxes of the predictive explorer start at the defaults of the function, say which numbers are meant, and the function gets what they hold. *)
From Coq Require Import List Bool String Ascii Reals ZArith Lra Lia.
From Verif Require Import Base XR TextModel TextProps ReModel FamModel BoundModel BoundProps CatModel SourceModel SourceSpec SourceProofs SourceProps PplModel BoxModel.
From Verif Require GeoProps.
Import ListNotations.
Open Scope R_scope.

(* ---------------------------------------------------------------- specification *)
(** [y] is a whole number nearest to [x]; infinities are themselves. *)
Definition nearest (x y : xr) : Prop := match x with Fin r => exists z, y = Fin (IZR z) /\ Rabs (r - IZR z) <= 1 / 2 | _ => y = x end.
(** The parameters that are counts. *)
Definition is_count (f : family) (name : string) : Prop :=
  match f with Binomial | BetaBinomial | ZeroInflatedBinomial => name = "n"%string | HyperGeometric => True | _ => False end.
(** The numbers typed in a box, the states of a check box or button and the options chosen, in order. *)
Definition typed (name : text) (es : list event) : list xr :=
  flat_map (fun e => match e with Typed n x => if text_eqb n name then [x] else [] | _ => [] end) es.
Definition ticked (name : text) (es : list event) : list bool :=
  flat_map (fun e => match e with Ticked n b => if text_eqb n name then [b] else [] | _ => [] end) es.
Definition chosen (name : text) (es : list event) : list text :=
  flat_map (fun e => match e with Chosen n o => if text_eqb n name then [o] else [] | _ => [] end) es.
(** A number without its fraction. *)
Definition cut (x : xr) : xr := match x with Fin r => Fin (IZR (if Rltb r 0 then - Int_part (- r) else Int_part r)) | _ => x end.
(** What the box of a parameter holds: the last number typed in it, or else what it started from. The boxes for whole numbers cut numbers and ignore
    those that are not finite. *)
Definition held (b : box) (es : list event) : xr :=
  if b_whole b then last (map cut (filter xisfinite (typed (b_name b) es))) (b_value b) else last (typed (b_name b) es) (b_value b).
Definition number (name : string) (start : R) (es : list event) : xr := last (typed (txt name) es) (Fin start).
Definition flag (name : string) (start : bool) (es : list event) : bool := last (ticked (txt name) es) start.
Definition three_kinds : list text := [txt "hist"; txt "kde"; txt "ecdf"].
Definition kind_of (start : text) (es : list event) : text := last (filter (fun o => existsb (text_eqb o) three_kinds) (chosen (txt "__kind__") es)) start.
(** The names that the explorer keeps for its own controls. *)
Definition reserved : list text :=
  [txt "__kind__"; txt "__set_xlim__"; txt "__x_min__"; txt "__x_max__"; txt "__set_ylim__"; txt "__y_min__"; txt "__y_max__"; txt "__resample__"].
(** The event gives a value to a widget that differs from the one before; nan differs from itself. *)
Definition differs (x y : xr) : Prop := x = NaN \/ x <> y.
Definition news (boxes : list box) (kind : text) (es : list event) (e : event) : Prop :=
  match e with
  | Typed n x =>
      (exists b, In b boxes /\ n = b_name b /\ (b_whole b = true -> xisfinite x = true) /\ differs (held b (es ++ [e])) (held b es)) \/
      (exists name start, In (name, start) [("__x_min__", -10); ("__x_max__", 10); ("__y_min__", -10); ("__y_max__", 10)]%string /\
        n = txt name /\ differs x (number name start es))
  | Ticked n v =>
      exists name start, In (name, start) [("__set_xlim__", false); ("__set_ylim__", false); ("__resample__", true)]%string /\
        n = txt name /\ v <> flag name start es
  | Chosen n o => n = txt "__kind__" /\ In o three_kinds /\ o <> kind_of kind es
  end.

(* ---------------------------------------------------------------- the boxes *)
Lemma round_even_near r : Rabs (r - IZR (round_even r)) <= 1 / 2.
Proof.
  unfold round_even. destruct (base_Int_part r) as [A B]. destruct (Rltb_spec (r - IZR (Int_part r)) (1 / 2)).
  - rewrite Rabs_right; lra.
  - destruct (Rltb_spec (1 / 2) (r - IZR (Int_part r))).
    + rewrite plus_IZR. rewrite Rabs_left1; lra.
    + destruct (Z.even _); [rewrite Rabs_right; lra|]. rewrite plus_IZR. rewrite Rabs_left1; lra.
Qed.
Lemma fmt0_nearest x : nearest x (fmt0 x).
Proof. destruct x; cbn; try reflexivity. exists (round_even r). split; [reflexivity | apply round_even_near]. Qed.
Lemma supports_upper D i lim : nth_error (supports D) i = Some lim -> snd lim <> None.
Proof.
  assert (H : forall l, forallb (fun b : bound => match snd b with Some _ => true | None => false end) l = true -> nth_error l i = Some lim -> snd lim <> None).
  { intros l F N. rewrite forallb_forall in F. specialize (F _ (nth_error_In _ _ N)). destruct (snd lim); congruence. }
  destruct D as [f| | | | | | |]; apply H; try reflexivity. destruct f; reflexivity.
Qed.
Lemma box_limits_upper float lim f : snd (box_limits float lim f) = snd lim.
Proof. destruct lim as [l u]. destruct f; reflexivity. Qed.
Lemma xleb_fin a b : a <= b -> xleb (Fin a) (Fin b) = true.
Proof.
  intro H. unfold xleb. cbn [xltb xeqb]. destruct (Rltb_spec a b); [reflexivity|]. destruct (Reqb_spec a b); [reflexivity|]. exfalso. lra.
Qed.
Lemma stored_spec D i lim : nth_error (supports D) i = Some lim -> D <> CCategorical -> D <> CDirichlet ->
  exists f n v c, D = Fam f /\ nth_error (init_vals f) i = Some (n, v) /\ nth_error (stored D) i = Some c /\
    inside (Fin v) lim = true /\ ((c = Real v /\ ~ is_count f n) \/ exists z, c = Whole z /\ IZR z = v /\ is_count f n).
Proof.
  intros N C1 C2. destruct D as [f| | | | | | |]; try congruence; try (destruct i; discriminate N).
  exists f. pose proof eps_small as E. pose proof PI_RGT_0.
  destruct f; do 4 (try (destruct i as [|i]); cbn [supports params_support nth_error named init_vals map fst String.eqb Ascii.eqb Bool.eqb] in N; try discriminate N;
    try (destruct i; discriminate N)); injection N as <-.
  all: do 3 eexists; (split; [reflexivity|]); (split; [reflexivity|]); (split; [reflexivity|]); split.
  all: try (right; eexists; (split; [reflexivity|]); (split; [reflexivity|]); cbn; first [exact I | reflexivity]).
  all: try (left; split; [reflexivity | cbn; first [tauto | discriminate]]).
  all: unfold inside, positive, open_unit, unit_bound, real_line; cbn [fst snd]; rewrite ?andb_true_iff; try split; try reflexivity; apply xleb_fin; lra.
Qed.

(** For every function made of lines that assign one distribution each, whose parameters all appear in the arguments of distributions: the explorer
    shows one box per parameter, in order, with its name and the nearest whole numbers to the limits of the argument where it is used (corrected for the
    function applied to it, C62). A parameter whose default is a number starts there, in a box for any number. The others start at the value that the
    distribution starts from, which lies within its limits, and in a box for whole numbers exactly if they are counts. *)
Theorem C84_boxes : forall float ls params e uss,
  e <> EBambi -> good_lines ls -> params <> [] -> Forall identifier (map fst params) ->
  Forall2 (line_uses (map fst params) (match e with EPymc => -1 | _ => 0 end)%Z) ls uss -> (forall u, In u (List.concat uss) -> good_use u) ->
  (forall p, In p (map fst params) -> last_use p (List.concat uss) <> None) ->
  (forall p D i f, In (p, NotANumber) params -> last_use p (List.concat uss) = Some (D, i, f) -> D <> CCategorical /\ D <> CDirichlet) ->
  exists boxes, explorer_opens float (show ls) params e = Ok boxes /\
    Forall2 (fun pd b => exists D i f lim lower upper,
      last_use (fst pd) (List.concat uss) = Some (D, Z.of_nat i, f) /\ nth_error (supports D) i = Some lim /\
      box_limits float lim f = (lower, Some upper) /\
      b_name b = fst pd /\ nearest lower (b_lower b) /\ nearest upper (b_upper b) /\
      match snd pd with
      | Number x => b_whole b = false /\ b_value b = x
      | NotANumber => exists fam n v, D = Fam fam /\ nth_error (init_vals fam) i = Some (n, v) /\ b_value b = Fin v /\
          inside (Fin v) lim = true /\ (b_whole b = true <-> is_count fam n)
      end) params boxes.
Proof.
  intros float ls params e uss He G N F U H L A. unfold explorer_opens.
  rewrite (explorer_parse ls (map fst params) e uss); try assumption; [|destruct params; [congruence|discriminate]]. cbn [bind]. clear N F U G He.
  induction params as [|[p d] params IH].
  - exists []. split; [reflexivity | constructor].
  - destruct IH as (boxes & E & R); [intros q I; apply L; right; exact I | intros q D i f I; apply A; right; exact I |].
    cbn [parameter_boxes]. rewrite find_put_uses. cbn [dict_find].
    destruct (last_use p (List.concat uss)) as [[[D i] f]|] eqn:Q; [|exfalso; exact (L p (or_introl eq_refl) Q)].
    destruct (H _ (last_use_in _ _ _ Q)) as (_ & _ & _ & B).
    assert (PI : forall X (l : list X), py_index l i = match nth_error l (Z.to_nat i) with Some x => Ok x | None => Err IndexError end).
    { intros X l. unfold py_index. replace (i <? 0)%Z with false by (symmetry; apply Z.ltb_ge; lia). cbv zeta.
      replace (i <? 0)%Z with false by (symmetry; apply Z.ltb_ge; lia). reflexivity. }
    rewrite !PI. destruct (nth_error (supports D) (Z.to_nat i)) as [lim|] eqn:Nt; [|apply nth_error_None in Nt; lia]. cbn [bind].
    pose proof (supports_upper _ _ _ Nt) as Up. rewrite <- (box_limits_upper float lim f) in Up.
    destruct (box_limits float lim f) as [lower [upper|]] eqn:BL; [|contradiction]. destruct d as [x|].
    + cbn [bind get_boxes snd fst]. rewrite E. cbn [bind]. eexists. split; [reflexivity|]. constructor; [|exact R].
      exists D, (Z.to_nat i), f, lim, lower, upper. rewrite Z2Nat.id by lia. cbn [fst snd b_name b_lower b_upper b_whole b_value].
      repeat split; auto using fmt0_nearest.
    + destruct (A p D i f (or_introl eq_refl) Q) as [A1 A2].
      destruct (stored_spec D (Z.to_nat i) lim Nt A1 A2) as (fam & n & v & c & -> & Ni & Nc & In_ & K). rewrite Nc. cbn [bind].
      destruct K as [[-> K]|(z & -> & Z & K)]; cbn [get_boxes snd fst bind]; rewrite E; cbn [bind]; eexists; (split; [reflexivity|]); constructor; try exact R;
        exists (Fam fam), (Z.to_nat i), f, lim, lower, upper; rewrite Z2Nat.id by lia; cbn [fst snd b_name b_lower b_upper b_whole b_value];
        repeat split; auto using fmt0_nearest; exists fam, n, v; repeat split; auto; try congruence; try (intros; contradiction); discriminate.
Qed.

(* ---------------------------------------------------------------- what is drawn *)
Lemma set_item_new {A} (d : list (text * A)) k v : ~ In k (map fst d) -> set_item d k v = d ++ [(k, v)].
Proof.
  induction d as [|[k' v'] d IH]; intro N; [reflexivity|]. cbn [set_item]. cbn [map fst In] in N.
  rewrite text_eqb_neq by (intro; apply N; left; assumption). rewrite IH by (intro; apply N; right; assumption). reflexivity.
Qed.
Lemma items_set {A B} (key : A -> text) (item : A -> B) l : forall d, NoDup (map fst d ++ map key l) ->
  fold_left (fun d a => set_item d (key a) (item a)) l d = d ++ map (fun a => (key a, item a)) l.
Proof.
  induction l as [|b l IH]; intros d N; [symmetry; apply app_nil_r|]. cbn [fold_left map].
  cbn [map] in N. rewrite set_item_new by (intro I; apply NoDup_remove_2 in N; apply N, in_or_app; left; exact I).
  rewrite IH; [rewrite <- app_assoc; reflexivity|]. rewrite map_app, <- app_assoc. exact N.
Qed.
Lemma NoDup_join {A} (l m : list A) : NoDup l -> NoDup m -> (forall x, In x l -> ~ In x m) -> NoDup (l ++ m).
Proof.
  induction 1 as [|x l N _ IH]; intros M D; [exact M|]. cbn [app]. constructor.
  - intro I. apply in_app_or in I as [I|I]; [exact (N I) | exact (D x (or_introl eq_refl) I)].
  - apply IH; [exact M | intros y I; apply D; right; exact I].
Qed.
Lemma text_eqb_comm a b : text_eqb a b = text_eqb b a.
Proof.
  destruct (text_eqb a b) eqn:E; symmetry; [apply text_eqb_spec in E; subst; apply text_eqb_refl|].
  apply text_eqb_neq. intro; subst. rewrite text_eqb_refl in E. discriminate.
Qed.
Lemma kind_in k : In k three_kinds -> existsb (text_eqb k) kinds = true.
Proof. intro I. apply existsb_exists. exists k. split; [exact I | apply text_eqb_refl]. Qed.
(** The widgets after the events. *)
Definition row (boxes : list box) (kind : text) (es : list event) : widgets :=
  map (fun b => (b_name b, TextBox (mkBox (b_name b) (b_lower b) (b_upper b) (b_whole b) (held b es)))) boxes ++
  [ (txt "__set_xlim__", Flag (flag "__set_xlim__" false es)); (txt "__x_min__", NumberBox (number "__x_min__" (-10) es));
    (txt "__x_max__", NumberBox (number "__x_max__" 10 es)); (txt "__set_ylim__", Flag (flag "__set_ylim__" false es));
    (txt "__y_min__", NumberBox (number "__y_min__" (-10) es)); (txt "__y_max__", NumberBox (number "__y_max__" 10 es));
    (txt "__resample__", Flag (flag "__resample__" true es)); (txt "__kind__", Choice kinds (kind_of kind es)) ].
Lemma box_eta b : mkBox (b_name b) (b_lower b) (b_upper b) (b_whole b) (b_value b) = b.
Proof. destruct b; reflexivity. Qed.
Lemma held_nil b : held b [] = b_value b.
Proof. unfold held. destruct (b_whole b); reflexivity. Qed.
Lemma textboxes_row boxes kind : NoDup (map b_name boxes) -> (forall b, In b boxes -> ~ In (b_name b) reserved) -> In kind three_kinds ->
  textboxes boxes kind = Ok (row boxes kind []).
Proof.
  intros N C K. unfold textboxes, other_widgets. rewrite kind_in by exact K. cbn [bind]. f_equal.
  rewrite (items_set b_name TextBox) by exact N. rewrite app_nil_l.
  rewrite (items_set fst snd).
  - unfold row. f_equal. apply map_ext. intro b. rewrite held_nil, box_eta. reflexivity.
  - rewrite map_map. cbn [fst]. apply NoDup_join; [exact N | cbn; repeat constructor; cbn; intuition discriminate|].
    intros x I J. apply in_map_iff in I as (b & <- & I). apply (C b I). revert J. cbn [map fst]. unfold reserved. cbn [In]. tauto.
Qed.
Lemma held_snoc b es e : held b (es ++ [e]) =
  match e with
  | Typed n x => if text_eqb n (b_name b) then if b_whole b then if xisfinite x then cut x else held b es else x else held b es
  | _ => held b es
  end.
Proof.
  unfold held, typed. rewrite flat_map_app. destruct e as [n x|n v|n o]; cbn [flat_map]; rewrite ?app_nil_r; try reflexivity.
  destruct (text_eqb n (b_name b)); cbn [app]; rewrite ?app_nil_r; [|reflexivity].
  destruct (b_whole b); [|apply last_last]. rewrite filter_app, map_app. cbn [filter].
  destruct (xisfinite x); cbn [map]; [apply last_last | rewrite app_nil_r; reflexivity].
Qed.
Lemma number_snoc name s es e : number name s (es ++ [e]) = match e with Typed n x => if text_eqb n (txt name) then x else number name s es | _ => number name s es end.
Proof.
  unfold number, typed. rewrite flat_map_app. destruct e as [n x|n v|n o]; cbn [flat_map]; rewrite ?app_nil_r; try reflexivity.
  destruct (text_eqb n (txt name)); cbn [app]; rewrite ?app_nil_r; [apply last_last | reflexivity].
Qed.
Lemma flag_snoc name s es e : flag name s (es ++ [e]) = match e with Ticked n x => if text_eqb n (txt name) then x else flag name s es | _ => flag name s es end.
Proof.
  unfold flag, ticked. rewrite flat_map_app. destruct e as [n x|n v|n o]; cbn [flat_map]; rewrite ?app_nil_r; try reflexivity.
  destruct (text_eqb n (txt name)); cbn [app]; rewrite ?app_nil_r; [apply last_last | reflexivity].
Qed.
Lemma kind_snoc s es e : kind_of s (es ++ [e]) =
  match e with Chosen n o => if text_eqb n (txt "__kind__") && existsb (text_eqb o) three_kinds then o else kind_of s es | _ => kind_of s es end.
Proof.
  unfold kind_of, chosen. rewrite flat_map_app. destruct e as [n x|n v|n o]; cbn [flat_map]; rewrite ?app_nil_r; try reflexivity.
  destruct (text_eqb n (txt "__kind__")); cbn [app andb]; rewrite ?app_nil_r; [|reflexivity]. rewrite filter_app. cbn [filter].
  destruct (existsb (text_eqb o) three_kinds); [apply last_last | rewrite app_nil_r; reflexivity].
Qed.
Lemma react_number e name s es : react e (txt name, NumberBox (number name s es)) = (txt name, NumberBox (number name s (es ++ [e]))).
Proof.
  rewrite number_snoc. unfold react. cbn [fst snd]. f_equal. destruct e as [n x|n v|n o]; cbn [about assigned]; try (destruct (text_eqb _ _); reflexivity).
  rewrite (text_eqb_comm (txt name)). destruct (text_eqb n (txt name)); reflexivity.
Qed.
Lemma react_flag e name s es : react e (txt name, Flag (flag name s es)) = (txt name, Flag (flag name s (es ++ [e]))).
Proof.
  rewrite flag_snoc. unfold react. cbn [fst snd]. f_equal. destruct e as [n x|n v|n o]; cbn [about assigned]; try (destruct (text_eqb _ _); reflexivity).
  rewrite (text_eqb_comm (txt name)). destruct (text_eqb n (txt name)); reflexivity.
Qed.
Lemma react_kind e s es : react e (txt "__kind__", Choice kinds (kind_of s es)) = (txt "__kind__", Choice kinds (kind_of s (es ++ [e]))).
Proof.
  rewrite kind_snoc. unfold react. cbn [fst snd]. f_equal. destruct e as [n x|n v|n o]; cbn [about assigned]; try (destruct (text_eqb _ _); reflexivity).
  rewrite (text_eqb_comm (txt "__kind__")). destruct (text_eqb n (txt "__kind__")); [|reflexivity]. cbn [andb].
  change kinds with three_kinds. destruct (existsb (text_eqb o) three_kinds); reflexivity.
Qed.
Lemma react_box e b es : react e (b_name b, TextBox (mkBox (b_name b) (b_lower b) (b_upper b) (b_whole b) (held b es))) =
  (b_name b, TextBox (mkBox (b_name b) (b_lower b) (b_upper b) (b_whole b) (held b (es ++ [e])))).
Proof.
  rewrite held_snoc. unfold react. cbn [fst snd]. f_equal. destruct e as [n x|n v|n o]; cbn [about assigned]; try (destruct (text_eqb _ _); reflexivity).
  rewrite (text_eqb_comm (b_name b)). destruct (text_eqb n (b_name b)); [|reflexivity]. unfold type_in. cbn [b_whole b_name b_lower b_upper].
  destruct (b_whole b); [destruct x|]; reflexivity.
Qed.
Lemma happen_row boxes kind es e : happen (row boxes kind es) e = row boxes kind (es ++ [e]).
Proof.
  unfold happen, row. rewrite map_app. f_equal.
  - rewrite map_map. apply map_ext. intro b. apply react_box.
  - cbn [map]. rewrite !react_number, !react_flag, react_kind. reflexivity.
Qed.
Lemma same_value_eq v w : same_value v w = true -> v = w.
Proof.
  destruct v, w; cbn; try discriminate; intro H.
  - destruct x, x0; cbn in H; try discriminate; try reflexivity. destruct (Reqb_spec r r0); [congruence | discriminate].
  - apply eqb_prop in H. congruence.
  - apply text_eqb_spec in H. congruence.
Qed.
Lemma unnoticed ws e : noticed ws e = false -> values (happen ws e) = values ws.
Proof.
  unfold noticed, values, happen. intro H. rewrite map_map. apply map_ext_in. intros [k w] I. cbn [fst snd react]. f_equal.
  destruct (text_eqb k (about e)) eqn:T; [|reflexivity]. destruct (assigned w e) as [w'|] eqn:A; [|reflexivity].
  destruct (same_value (value_of w) (value_of w')) eqn:V; [symmetry; apply same_value_eq; exact V|].
  exfalso. rewrite (proj2 (existsb_exists _ ws)) in H; [discriminate|]. exists (k, w). split; [exact I|]. cbn [fst snd]. rewrite T, A, V. reflexivity.
Qed.
Lemma last_cons_ne {A} (x : A) l d d' : l <> [] -> last (x :: l) d = last l d'.
Proof. revert x. induction l as [|y l IH]; intros x N; [contradiction|]. destruct l as [|z l]; [reflexivity|]. cbn [last] in *. apply (IH y). discriminate. Qed.
Lemma drawings_last kind es : forall ws d, last (drawings kind ws es) d = callback kind (values (fold_left happen es ws)).
Proof.
  induction es as [|e es IH]; intros ws d; [reflexivity|]. cbn [fold_left]. rewrite <- (IH (happen ws e) d). unfold drawings. cbn [redrawn].
  destruct (noticed ws e) eqn:Nt; [apply last_cons_ne; discriminate|]. rewrite unnoticed by exact Nt. reflexivity.
Qed.
Lemma redrawn_snoc kind es e : forall ws, redrawn kind ws (es ++ [e]) =
  redrawn kind ws es ++ (if noticed (fold_left happen es ws) e then [callback kind (values (happen (fold_left happen es ws) e))] else []).
Proof.
  induction es as [|e' es IH]; intro ws; cbn [app redrawn fold_left]; [rewrite app_nil_r; reflexivity|]. rewrite IH, app_assoc. reflexivity.
Qed.
Lemma happens_row boxes kind es : fold_left happen es (row boxes kind []) = row boxes kind es.
Proof.
  induction es as [|e es IH] using rev_ind; [reflexivity|]. rewrite fold_left_app. cbn [fold_left]. rewrite IH. apply happen_row.
Qed.
Lemma lookup_skip (boxes : list box) (f : box -> val) k rest : (forall b, In b boxes -> b_name b <> k) ->
  lookup k (map (fun b => (b_name b, f b)) boxes ++ rest) = lookup k rest.
Proof.
  induction boxes as [|b boxes IH]; intro N; [reflexivity|]. unfold lookup in *. cbn [map app find fst].
  rewrite text_eqb_neq by (apply N; left; reflexivity). apply IH. intros c I. apply N. right. exact I.
Qed.
Lemma remove_skip (boxes : list box) (f : box -> val) k rest : (forall b, In b boxes -> b_name b <> k) ->
  remove k (map (fun b => (b_name b, f b)) boxes ++ rest) = map (fun b => (b_name b, f b)) boxes ++ remove k rest.
Proof.
  induction boxes as [|b boxes IH]; intro N; [reflexivity|]. unfold remove in *. cbn [map app filter fst].
  rewrite text_eqb_neq by (apply N; left; reflexivity). cbn [negb]. f_equal. apply IH. intros c I. apply N. right. exact I.
Qed.
Ltac found k l := match l with (k, ?v) :: _ => v | _ :: ?r => found k r end.
Ltac without k l := match l with nil => l | (k, _) :: ?r => r | ?x :: ?r => let r' := without k r in constr:(x :: r') end.
Ltac closed := match goal with |- context [lookup ?k ?l] =>
  let v := found k l in replace (lookup k l) with (Some v) by reflexivity; let r := without k l in replace (remove k l) with r by reflexivity end; cbv iota.
Ltac names := repeat match goal with |- context [text_eqb (txt ?a) (txt ?b)] =>
  let v := eval vm_compute in (text_eqb (txt a) (txt b)) in change (text_eqb (txt a) (txt b)) with v end; cbv iota.
Definition limits (set lower upper : string) (es : list event) : option (xr * xr) :=
  if flag set false es then Some (number lower (-10) es, number upper 10 es) else None.
Lemma callback_row boxes kind es : (forall b, In b boxes -> ~ In (b_name b) reserved) ->
  callback kind (values (row boxes kind es)) =
  Ok {| d_x := option_map (fun p => (Num (fst p), Num (snd p))) (limits "__set_xlim__" "__x_min__" "__x_max__" es);
        d_y := option_map (fun p => (Some (Num (fst p)), Some (Num (snd p)))) (limits "__set_ylim__" "__y_min__" "__y_max__" es);
        d_kind := Some (Text (kind_of kind es)); d_args := map (fun b => (b_name b, Num (held b es))) boxes |}.
Proof.
  intro C. assert (Sk : forall k, In k reserved -> forall b, In b boxes -> b_name b <> k) by (intros k I b J E; subst; exact (C b J I)).
  unfold values, row. rewrite map_app, map_map. cbn [map fst snd value_of b_value].
  unfold limits.
  generalize (flag "__set_xlim__" false es) as sx, (flag "__set_ylim__" false es) as sy, (flag "__resample__" true es) as rs,
    (number "__x_min__" (-10) es) as xl, (number "__x_max__" 10 es) as xu, (number "__y_min__" (-10) es) as yl, (number "__y_max__" 10 es) as yu,
    (kind_of kind es) as kd. intros sx sy rs xl xu yl yu kd.
  set (here := map _ boxes).
  assert (P : forall k rest, In k reserved -> pop k (here ++ rest) = match lookup k rest with Some v => Ok (v, here ++ remove k rest) | None => Err KeyError end).
  { intros k rest I. unfold pop, here. rewrite lookup_skip, remove_skip by (apply Sk; exact I). reflexivity. }
  assert (Q : forall k d rest, In k reserved -> pop_or k d (here ++ rest) = match lookup k rest with Some v => (Some v, here ++ remove k rest) | None => (d, here ++ rest) end).
  { intros k d rest I. unfold pop_or, here. rewrite lookup_skip, remove_skip by (apply Sk; exact I). reflexivity. }
  unfold callback.
  repeat (rewrite P by (unfold reserved; cbn [In]; tauto); closed; cbn [bind fst snd]). cbv zeta.
  repeat (rewrite Q by (unfold reserved; cbn [In]; tauto); closed; cbn [fst snd]).
  cbn [truth]. rewrite app_nil_r. destruct sx, sy; reflexivity.
Qed.
Lemma row_items boxes kind es kw : In kw (row boxes kind es) <->
  (exists b, In b boxes /\ kw = (b_name b, TextBox (mkBox (b_name b) (b_lower b) (b_upper b) (b_whole b) (held b es)))) \/
  (exists name start, In (name, start) [("__set_xlim__", false); ("__set_ylim__", false); ("__resample__", true)]%string /\ kw = (txt name, Flag (flag name start es))) \/
  (exists name start, In (name, start) [("__x_min__", -10); ("__x_max__", 10); ("__y_min__", -10); ("__y_max__", 10)]%string /\ kw = (txt name, NumberBox (number name start es))) \/
  kw = (txt "__kind__", Choice kinds (kind_of kind es)).
Proof.
  unfold row. rewrite in_app_iff, in_map_iff. split.
  - intros [(b & <- & I)|I]; [left; exists b; auto|]. right. cbn [In] in I.
    destruct I as [<-|[<-|[<-|[<-|[<-|[<-|[<-|[<-|[]]]]]]]]].
    + left; do 2 eexists; split; [left; reflexivity | reflexivity].
    + right; left; do 2 eexists; split; [left; reflexivity | reflexivity].
    + right; left; do 2 eexists; split; [right; left; reflexivity | reflexivity].
    + left; do 2 eexists; split; [right; left; reflexivity | reflexivity].
    + right; left; do 2 eexists; split; [right; right; left; reflexivity | reflexivity].
    + right; left; do 2 eexists; split; [right; right; right; left; reflexivity | reflexivity].
    + left; do 2 eexists; split; [right; right; left; reflexivity | reflexivity].
    + right; right; reflexivity.
  - intros [(b & I & ->)|[(name & s & I & ->)|[(name & s & I & ->)| ->]]]; [left; exists b; auto|right..]; try (cbn [In] in I); cbn [In].
    + destruct I as [I|[I|[I|[]]]]; inversion I; subst; tauto.
    + destruct I as [I|[I|[I|[I|[]]]]]; inversion I; subst; tauto.
    + tauto.
Qed.
Lemma xeqb_differs x y : negb (xeqb y x) = true <-> differs x y.
Proof.
  unfold differs. destruct x, y; cbn; try (destruct (Reqb_spec r0 r); cbn); split; intro H; try discriminate; try reflexivity; try (right; discriminate);
    try (destruct H as [H|H]; [discriminate | exfalso; apply H; congruence]); try (right; congruence); left; reflexivity.
Qed.
Lemma noticed_news boxes kind es e : noticed (row boxes kind es) e = true <-> news boxes kind es e.
Proof.
  unfold noticed. rewrite existsb_exists. split.
  - intros (kw & I & H). apply row_items in I. apply andb_prop in H as [T H]. apply text_eqb_spec in T.
    destruct I as [(b & I & ->)|[(name & s & I & ->)|[(name & s & I & ->)| ->]]]; cbn [fst snd] in T, H; destruct e as [n x|n v|n o]; cbn [about assigned] in T, H;
      try discriminate H; subst n; cbn [news].
    + left. exists b. split; [exact I|]. split; [reflexivity|]. rewrite held_snoc, text_eqb_refl. unfold type_in in H. cbn [b_whole b_name b_lower b_upper] in H.
      destruct (b_whole b); [destruct x as [r| | |]; try discriminate H|]; cbn [option_map] in H; apply xeqb_differs in H; split; auto; discriminate.
    + exists name, s. split; [exact I|]. split; [reflexivity|]. cbn [value_of same_value] in H. intros ->. rewrite eqb_reflx in H. discriminate.
    + right. exists name, s. split; [exact I|]. split; [reflexivity|]. apply xeqb_differs. exact H.
    + split; [reflexivity|]. destruct (existsb (text_eqb o) kinds) eqn:E; [|discriminate H].
      apply existsb_exists in E as (o' & J & E). apply text_eqb_spec in E. subst o'. split; [exact J|]. intros ->. cbn [value_of same_value] in H.
      rewrite text_eqb_refl in H. discriminate.
  - destruct e as [n x|n v|n o]; cbn [news about].
    + intros [(b & I & -> & W & D)|(name & s & I & -> & D)].
      * eexists. split; [apply row_items; left; exists b; split; [exact I | reflexivity]|]. cbn [fst snd assigned]. rewrite text_eqb_refl. cbn [andb].
        rewrite held_snoc, text_eqb_refl in D. unfold type_in. cbn [b_whole b_name b_lower b_upper].
        destruct (b_whole b); [rewrite W in D by reflexivity; destruct x; try discriminate (W eq_refl)|]; cbn [option_map]; apply xeqb_differs; exact D.
      * eexists. split; [apply row_items; right; right; left; exists name, s; split; [exact I | reflexivity]|]. cbn [fst snd assigned].
        rewrite text_eqb_refl. cbn [andb value_of same_value]. apply xeqb_differs. exact D.
    + intros (name & s & I & -> & D). eexists. split; [apply row_items; right; left; exists name, s; split; [exact I | reflexivity]|]. cbn [fst snd assigned].
      rewrite text_eqb_refl. cbn [andb value_of same_value]. destruct (flag name s es), v; try reflexivity; congruence.
    + intros (-> & I & D). eexists. split; [apply row_items; right; right; right; reflexivity|]. cbn [fst snd assigned].
      rewrite text_eqb_refl. cbn [andb]. rewrite kind_in by exact I. cbn [value_of same_value]. rewrite text_eqb_neq; [reflexivity | congruence].
Qed.

(** Whatever the user does, in whatever order: the panel always shows the drawing for what the widgets hold. The function gets every parameter, in order,
    by its name, and nothing else; its value is the last number typed in its box, cut to a whole number in the boxes for whole numbers, which ignore nan
    and the infinities, or else the value that the box started from. The limits of an axis are the last ones typed, -10 and 10 at first, while its check
    box is ticked, and automatic otherwise; the kind of plot is the last one chosen, at first the one asked for. *)
Theorem C84_received : forall boxes kind es d, NoDup (map b_name boxes) -> (forall b, In b boxes -> ~ In (b_name b) reserved) -> In kind three_kinds ->
  exists ws, textboxes boxes kind = Ok ws /\
    last (drawings kind ws es) d = Ok {|
      d_x := if flag "__set_xlim__" false es then Some (Num (number "__x_min__" (-10) es), Num (number "__x_max__" 10 es)) else None;
      d_y := if flag "__set_ylim__" false es then Some (Some (Num (number "__y_min__" (-10) es)), Some (Num (number "__y_max__" 10 es))) else None;
      d_kind := Some (Text (kind_of kind es));
      d_args := map (fun b => (b_name b, Num (held b es))) boxes |}.
Proof.
  intros boxes kind es d N C K. exists (row boxes kind []). split; [apply textboxes_row; assumption|].
  rewrite drawings_last, happens_row, callback_row by exact C. unfold limits. destruct (flag "__set_xlim__" false es), (flag "__set_ylim__" false es); reflexivity.
Qed.
(** It is drawn once at the start, and again exactly when an event changes the value of a widget: a number differs from the one in the box, a check box or
    the button Resample changes, another of the three kinds of plot is chosen. *)
Theorem C84_redrawn : forall boxes kind, NoDup (map b_name boxes) -> (forall b, In b boxes -> ~ In (b_name b) reserved) -> In kind three_kinds ->
  exists ws, textboxes boxes kind = Ok ws /\ List.length (drawings kind ws []) = 1%nat /\
    forall es e,
      (news boxes kind es e -> List.length (drawings kind ws (es ++ [e])) = S (List.length (drawings kind ws es))) /\
      (~ news boxes kind es e -> drawings kind ws (es ++ [e]) = drawings kind ws es).
Proof.
  intros boxes kind N C K. exists (row boxes kind []). split; [apply textboxes_row; assumption|]. split; [reflexivity|].
  intros es e. unfold drawings. rewrite redrawn_snoc, happens_row. pose proof (noticed_news boxes kind es e) as W.
  destruct (noticed (row boxes kind es) e).
  - split; intro H; [cbn [List.length]; rewrite app_length; cbn [List.length]; lia | exfalso; apply H, W; reflexivity].
  - split; intro H; [apply W in H; discriminate | rewrite app_nil_r; reflexivity].
Qed.
(** The boxes of the parameters stand on the left, in order, and the controls of the explorer on the right. A kind of plot that is not one of the three stops
    the explorer with TraitError. *)
Theorem C84_layout : forall boxes kind, NoDup (map b_name boxes) -> (forall b, In b boxes -> ~ In (b_name b) reserved) ->
  (In kind three_kinds -> exists ws controls, textboxes boxes kind = Ok ws /\
     layout ws = Ok (map (fun b => (b_name b, TextBox b)) boxes, controls) /\ map fst controls = reserved /\ (forall kw, In kw controls -> In kw ws)) /\
  (~ In kind three_kinds -> textboxes boxes kind = Err TraitError).
Proof.
  intros boxes kind N C. split; intro K.
  - exists (row boxes kind []). eexists. split; [apply textboxes_row; assumption|].
    assert (Sk : forall k, In k reserved -> forall b, In b boxes -> b_name b <> k) by (intros k I b J E; subst; exact (C b J I)).
    assert (F : forall k rest, In k reserved ->
      find (fun kw : text * widget => text_eqb (fst kw) k) (map (fun b => (b_name b, TextBox (mkBox (b_name b) (b_lower b) (b_upper b) (b_whole b) (held b [])))) boxes ++ rest) =
      find (fun kw => text_eqb (fst kw) k) rest).
    { intros k rest I. pose proof (Sk k I) as S0. clear -S0. induction boxes as [|b boxes IH]; [reflexivity|]. cbn [map app find fst].
      rewrite text_eqb_neq by (apply S0; left; reflexivity). apply IH. intros c J. apply S0. right. exact J. }
    split; [|split].
    + unfold layout, row, default_names. cbn [map default_controls].
      rewrite !F by (unfold reserved; cbn [In]; tauto). cbn [find fst]. names. cbn [bind]. rewrite filter_app. cbn [filter fst existsb]. names.
      cbn [orb negb]. rewrite app_nil_r. f_equal. f_equal.
      clear -Sk. induction boxes as [|b boxes IH]; [reflexivity|]. cbn [map filter fst].
      rewrite !text_eqb_neq by (apply Sk; [unfold reserved; cbn [In]; tauto | left; reflexivity]). cbn [orb negb].
      rewrite held_nil, box_eta. f_equal. apply IH. intros k I c J. apply Sk; [exact I | right; exact J].
    + reflexivity.
    + unfold row. intros kw I. apply in_or_app. right. cbn [In] in I |- *. tauto.
  - unfold textboxes, other_widgets. destruct (existsb (text_eqb kind) kinds) eqn:E; [|reflexivity].
    exfalso. apply existsb_exists in E as (k & I & E). apply text_eqb_spec in E. subst k. exact (K I).
Qed.

(** All together: for such a function, with distinct parameters none of which bears the name of a control, the session shows one box per parameter, and
    after any events the last drawing is made with one argument per parameter, named as it, with what its box holds. *)
Theorem C84_session : forall float ls params e uss kind es,
  e <> EBambi -> good_lines ls -> params <> [] -> Forall identifier (map fst params) ->
  Forall2 (line_uses (map fst params) (match e with EPymc => -1 | _ => 0 end)%Z) ls uss -> (forall u, In u (List.concat uss) -> good_use u) ->
  (forall p, In p (map fst params) -> last_use p (List.concat uss) <> None) ->
  (forall p D i f, In (p, NotANumber) params -> last_use p (List.concat uss) = Some (D, i, f) -> D <> CCategorical /\ D <> CDirichlet) ->
  NoDup (map fst params) -> (forall p, In p (map fst params) -> ~ In p reserved) -> In kind three_kinds ->
  exists boxes controls ds dr, explorer_session float (show ls) params e kind es = Ok (map (fun b => (b_name b, TextBox b)) boxes, controls, ds) /\
    map b_name boxes = map fst params /\ map fst controls = reserved /\ last ds (Err KeyError) = Ok dr /\
    d_args dr = map (fun b => (b_name b, Num (held b es))) boxes.
Proof.
  intros float ls params e uss kind es He G N F U H L A ND Re K.
  destruct (C84_boxes float ls params e uss He G N F U H L A) as (boxes & E & B). exists boxes.
  assert (Names : map b_name boxes = map fst params).
  { clear -B. induction B as [|pd b params boxes (D & i & f & lim & lo & up & _ & _ & _ & Nm & _) _ IH]; [reflexivity|]. cbn [map]. rewrite Nm, IH. reflexivity. }
  assert (Re' : forall b, In b boxes -> ~ In (b_name b) reserved).
  { intros b I. apply Re. rewrite <- Names. apply in_map. exact I. }
  rewrite <- Names in ND. destruct (C84_received boxes kind es (Err KeyError) ND Re' K) as (ws & T & D).
  destruct (C84_layout boxes kind ND Re') as [La _]. destruct (La K) as (ws' & controls & T' & La' & Cn & _).
  rewrite T in T'. injection T' as <-. exists controls. do 2 eexists. unfold explorer_session. rewrite E. cbn [bind]. rewrite T. cbn [bind]. rewrite La'. cbn [bind].
  split; [reflexivity|]. split; [exact Names|]. split; [exact Cn|]. split; [exact D | reflexivity].
Qed.

(* ---------------------------------------------------------------- what does not hold *)
(** A parameter without a number as its default that is used in a Categorical or a Dirichlet stops the explorer with TraitError: the distribution starts
    from an array, which no text box holds. *)
Theorem C84_array_refuted : forall float ls params e uss p D i f,
  e <> EBambi -> good_lines ls -> Forall identifier (map fst params) ->
  Forall2 (line_uses (map fst params) (match e with EPymc => -1 | _ => 0 end)%Z) ls uss -> (forall u, In u (List.concat uss) -> good_use u) ->
  (forall p, In p (map fst params) -> last_use p (List.concat uss) <> None) ->
  In (p, NotANumber) params -> last_use p (List.concat uss) = Some (D, i, f) -> D = CCategorical \/ D = CDirichlet ->
  explorer_opens float (show ls) params e = Err TraitError.
Proof.
  intros float ls params e uss p D i f He G F U H L I Q A. unfold explorer_opens.
  rewrite (explorer_parse ls (map fst params) e uss); try assumption; [|destruct params; [contradiction|discriminate]]. cbn [bind]. clear F U G He.
  induction params as [|[q d] params IH]; [contradiction|].
  cbn [parameter_boxes]. rewrite find_put_uses. cbn [dict_find].
  destruct (last_use q (List.concat uss)) as [[[D' i'] f']|] eqn:Q'; [|exfalso; exact (L q (or_introl eq_refl) Q')].
  destruct (H _ (last_use_in _ _ _ Q')) as (_ & _ & _ & B).
  assert (PI : forall X (l : list X), py_index l i' = match nth_error l (Z.to_nat i') with Some x => Ok x | None => Err IndexError end).
  { intros X l. unfold py_index. replace (i' <? 0)%Z with false by (symmetry; apply Z.ltb_ge; lia). cbv zeta.
    replace (i' <? 0)%Z with false by (symmetry; apply Z.ltb_ge; lia). reflexivity. }
  rewrite !PI. destruct (nth_error (supports D') (Z.to_nat i')) as [lim|] eqn:Nt; [|apply nth_error_None in Nt; lia]. cbn [bind].
  pose proof (supports_upper _ _ _ Nt) as Up. rewrite <- (box_limits_upper float lim f') in Up.
  destruct (box_limits float lim f') as [lower [upper|]] eqn:BL; [|contradiction].
  assert (Arr : D' = CCategorical \/ D' = CDirichlet -> exists l, nth_error (stored D') (Z.to_nat i') = Some (Values l)).
  { intros [-> | ->]; destruct (Z.to_nat i') as [|n]; try (destruct n; discriminate Nt); eexists; reflexivity. }
  destruct I as [E|I].
  - injection E as -> ->. rewrite Q in Q'. injection Q' as <- <- <-. destruct (Arr A) as (l & ->). reflexivity.
  - assert (E : parameter_boxes float params (put_uses (List.concat uss) []) = Err TraitError) by (apply IH; [intros; apply L; right; assumption | exact I]).
    destruct d as [x|]; [cbn [bind get_boxes snd fst]; rewrite E; reflexivity|].
    assert (K : (D' = CCategorical \/ D' = CDirichlet) \/ (D' <> CCategorical /\ D' <> CDirichlet)) by (destruct D'; intuition congruence).
    destruct K as [K|[K1 K2]]; [destruct (Arr K) as (l & ->); reflexivity|].
    destruct (stored_spec D' (Z.to_nat i') lim Nt K1 K2) as (fam & n & v & c & -> & _ & Nc & _ & K). rewrite Nc. cbn [bind].
    destruct K as [[-> _]|(z & -> & _)]; cbn [get_boxes snd fst bind]; rewrite E; reflexivity.
Qed.
(** A parameter that no distribution of the function takes stops the explorer with KeyError, even if it has a default. *)
Theorem C84_unused_refuted : forall float ls params e uss p d,
  e <> EBambi -> good_lines ls -> Forall identifier (map fst params) ->
  Forall2 (line_uses (map fst params) (match e with EPymc => -1 | _ => 0 end)%Z) ls uss -> (forall u, In u (List.concat uss) -> good_use u) ->
  (forall p D i f, In (p, NotANumber) params -> last_use p (List.concat uss) = Some (D, i, f) -> D <> CCategorical /\ D <> CDirichlet) ->
  In (p, d) params -> last_use p (List.concat uss) = None ->
  explorer_opens float (show ls) params e = Err KeyError.
Proof.
  intros float ls params e uss p d He G F U H A I Q. unfold explorer_opens.
  rewrite (explorer_parse ls (map fst params) e uss); try assumption; [|destruct params; [contradiction|discriminate]]. cbn [bind]. clear F U G He.
  induction params as [|[q d'] params IH]; [contradiction|].
  cbn [parameter_boxes]. rewrite find_put_uses. cbn [dict_find].
  destruct (last_use q (List.concat uss)) as [[[D' i'] f']|] eqn:Q'; [|reflexivity].
  destruct I as [E|I]; [injection E as -> ->; congruence|].
  assert (E : parameter_boxes float params (put_uses (List.concat uss) []) = Err KeyError) by (apply IH; [intros q' D i f J; apply A; right; exact J | exact I]).
  destruct (H _ (last_use_in _ _ _ Q')) as (_ & _ & _ & B).
  assert (PI : forall X (l : list X), py_index l i' = match nth_error l (Z.to_nat i') with Some x => Ok x | None => Err IndexError end).
  { intros X l. unfold py_index. replace (i' <? 0)%Z with false by (symmetry; apply Z.ltb_ge; lia). cbv zeta.
    replace (i' <? 0)%Z with false by (symmetry; apply Z.ltb_ge; lia). reflexivity. }
  rewrite !PI. destruct (nth_error (supports D') (Z.to_nat i')) as [lim|] eqn:Nt; [|apply nth_error_None in Nt; lia]. cbn [bind].
  pose proof (supports_upper _ _ _ Nt) as Up. rewrite <- (box_limits_upper float lim f') in Up.
  destruct (box_limits float lim f') as [lower [upper|]] eqn:BL; [|contradiction].
  destruct d' as [x|]; [cbn [bind get_boxes snd fst]; rewrite E; reflexivity|].
  destruct (A q D' i' f' (or_introl eq_refl) Q') as [K1 K2].
  destruct (stored_spec D' (Z.to_nat i') lim Nt K1 K2) as (fam & n & v & c & -> & _ & Nc & _ & K). rewrite Nc. cbn [bind].
  destruct K as [[-> _]|(z & -> & _)]; cbn [get_boxes snd fst bind]; rewrite E; reflexivity.
Qed.
(** A count with a default, n=5 here, gets a box for any number: whatever is typed there is passed on, 5.1 for instance, with which Binomial fails. *)
Theorem C84_integer_default_refuted : forall float, exists source boxes,
  parse_function_for_pred_textboxes (erase comment source) [txt "n"] EPreliz = Ok [(txt "n", (Fam Binomial, 0%Z, None))] /\
  explorer_opens float source [(txt "n", Number (Fin 5))] EPreliz = Ok boxes /\
  forall x kind, In kind three_kinds -> exists ws d, textboxes boxes kind = Ok ws /\ last (drawings kind ws [Typed (txt "n") x]) (Err KeyError) = Ok d /\
    d_args d = [(txt "n", Num x)].
Proof.
  intro float. exists (txt "def a_model(n=5):
    y = pz.Binomial(n, 0.5).rvs(100)
    return y
"). exists [mkBox (txt "n") (Fin (IZR (round_even eps))) PInf false (Fin 5)].
  assert (P : forall s, s = txt "def a_model(n=5):
    y = pz.Binomial(n, 0.5).rvs(100)
    return y
" -> parse_function_for_pred_textboxes (erase comment s) [txt "n"] EPreliz = Ok [(txt "n", (Fam Binomial, 0%Z, None))]) by (intros s ->; vm_compute; reflexivity).
  split; [apply P; reflexivity|]. split.
  - unfold explorer_opens. cbn [map fst]. rewrite P by reflexivity. reflexivity.
  - intros x kind K. edestruct (C84_received [mkBox (txt "n") (Fin (IZR (round_even eps))) PInf false (Fin 5)] kind [Typed (txt "n") x] (Err KeyError)) as (ws & E & D);
      [repeat constructor; cbn; tauto | intros b [<-|[]]; vm_compute; intuition discriminate | exact K|].
    exists ws. eexists. split; [exact E|]. split; [exact D | reflexivity].
Qed.
(** The limits are only written beside the box: -1 typed as the scale of a Normal is passed on, and the limits of the mean of a VonMises, -pi and pi, are
    shown as -3 and 3. *)
Theorem C84_limits_refuted : forall float, exists source boxes m s,
  explorer_opens float source [(txt "m", NotANumber); (txt "s", NotANumber)] EPreliz = Ok boxes /\ boxes = [m; s] /\
  (b_lower m = Fin (-3) /\ b_upper m = Fin 3 /\ 3 < PI) /\ b_lower s = Fin 0 /\
  forall kind, In kind three_kinds -> exists ws d, textboxes boxes kind = Ok ws /\ last (drawings kind ws [Typed (txt "s") (Fin (-1))]) (Err KeyError) = Ok d /\
    d_args d = [(txt "m", Num (Fin 0)); (txt "s", Num (Fin (-1)))].
Proof.
  intro float. exists (txt "def a_model(m, s):
    a = pz.VonMises(m, 1).rvs()
    y = pz.Normal(a, s).rvs(100)
    return a, y
").
  assert (P : forall s, s = txt "def a_model(m, s):
    a = pz.VonMises(m, 1).rvs()
    y = pz.Normal(a, s).rvs(100)
    return a, y
" -> parse_function_for_pred_textboxes (erase comment s) [txt "m"; txt "s"] EPreliz =
     Ok [(txt "m", (Fam VonMises, 0%Z, None)); (txt "s", (Fam Normal, 1%Z, None))]) by (intros s ->; vm_compute; reflexivity).
  exists [mkBox (txt "m") (Fin (IZR (round_even (- PI)))) (Fin (IZR (round_even PI))) false (Fin 0);
          mkBox (txt "s") (Fin (IZR (round_even eps))) PInf false (Fin 1)]. do 2 eexists.
  split; [unfold explorer_opens; cbn [map fst]; rewrite P by reflexivity; reflexivity|]. split; [reflexivity|].
  match goal with |- _ /\ _ /\ forall kind, _ -> exists ws d, textboxes ?l _ = _ /\ _ => assert (D : forall kind, In kind three_kinds -> exists ws d,
    textboxes l kind = Ok ws /\ last (drawings kind ws [Typed (txt "s") (Fin (-1))]) (Err KeyError) = Ok d /\ d_args d = [(txt "m", Num (Fin 0)); (txt "s", Num (Fin (-1)))]);
    [intros kind K; edestruct (C84_received l kind [Typed (txt "s") (Fin (-1))] (Err KeyError)) as (ws & E & D);
      [repeat constructor; cbn; intuition discriminate | intros b [<-|[<-|[]]]; vm_compute; intuition discriminate | exact K|];
     exists ws; eexists; split; [exact E|]; split; [exact D | reflexivity]|] end.
  cbn [b_lower b_upper].
  assert (R : forall r z, Rabs (r - IZR z) < 1 / 2 -> round_even r = z).
  { intros r z B. pose proof (round_even_near r) as B'. apply Rabs_def2 in B. assert (- (1 / 2) <= r - IZR (round_even r) <= 1 / 2) by (unfold Rabs in B'; destruct (Rcase_abs _); lra). clear B'.
    assert (U : (round_even r < z + 1)%Z) by (apply lt_IZR; rewrite plus_IZR; lra).
    assert (V : (z < round_even r + 1)%Z) by (apply lt_IZR; rewrite plus_IZR; lra). lia. }
  pose proof eps_small. assert (3 < PI < 13 / 4) as Pi.
  { pose proof PI2_3_2. pose proof GeoProps.PI_upper. lra. }
  split; [|split; [|exact D]]; clear D. all: rewrite ?(R (- PI) (-3)%Z) by (apply Rabs_def1; lra). all: rewrite ?(R PI 3%Z) by (apply Rabs_def1; lra). all: rewrite ?(R eps 0%Z) by (apply Rabs_def1; lra).
  all: repeat split; lra.
Qed.

(* ---------------------------------------------------------------- cases *)
(** The function of C62 with a default for its first parameter, and what is typed in its boxes. *)
Example C84_case float : exists boxes, explorer_opens float (show explorer_lines) [(txt "a", Number (Fin 3)); (txt "b", NotANumber)] EPreliz = Ok boxes /\
  NoDup (map b_name boxes) /\ (forall b, In b boxes -> ~ In (b_name b) reserved) /\ In (txt "kde") three_kinds /\
  map (fun b => (b_name b, held b [Typed (txt "b") (Fin 7); Ticked (txt "__set_xlim__") true; Typed (txt "a") NaN; Typed (txt "__x_max__") (Fin 3)])) boxes =
    [(txt "a", NaN); (txt "b", Fin 7)] /\
  news boxes (txt "kde") [Typed (txt "b") (Fin 7)] (Typed (txt "b") (Fin 8)) /\ ~ news boxes (txt "kde") [Typed (txt "b") (Fin 7)] (Typed (txt "b") (Fin 7)) /\
  exists ws, textboxes boxes (txt "kde") = Ok ws /\
    last (drawings (txt "kde") ws [Typed (txt "b") (Fin 7); Ticked (txt "__set_xlim__") true; Typed (txt "a") NaN; Typed (txt "__x_max__") (Fin 3)]) (Err KeyError) =
    Ok {| d_x := Some (Num (Fin (-10)), Num (Fin 3)); d_y := None; d_kind := Some (Text (txt "kde")); d_args := [(txt "a", Num NaN); (txt "b", Num (Fin 7))] |}.
Proof.
  destruct explorer_example as (G & U & I & H).
  assert (Q1 : last_use (txt "a") (List.concat explorer_uses) = Some (Fam Normal, 0%Z, None)) by reflexivity.
  assert (Q2 : last_use (txt "b") (List.concat explorer_uses) = Some (Fam Normal, 1%Z, Some (txt "exp"))) by reflexivity.
  assert (L : forall p, In p [txt "a"; txt "b"] -> last_use p (List.concat explorer_uses) <> None).
  { intros p [<-|[<-|[]]]; [rewrite Q1 | rewrite Q2]; discriminate. }
  assert (A : forall p D i f, In (p, NotANumber) [(txt "a", Number (Fin 3)); (txt "b", NotANumber)] -> last_use p (List.concat explorer_uses) = Some (D, i, f) ->
    D <> CCategorical /\ D <> CDirichlet).
  { intros p D i f J Q. destruct J as [J|[J|[]]]; [discriminate J|]. apply (f_equal fst) in J. cbn [fst] in J. subst p. rewrite Q2 in Q. injection Q as <- _ _. split; discriminate. }
  destruct (C84_boxes float explorer_lines [(txt "a", Number (Fin 3)); (txt "b", NotANumber)] EPreliz explorer_uses
    ltac:(discriminate) G ltac:(discriminate) I U H L A) as (boxes & E & F).
  exists boxes. split; [exact E|]. clear E.
    inversion F as [|? b ? r Ha Fr]; subst. inversion Fr as [|? b' ? r' Hb Fn]; subst. inversion Fn; subst.
    destruct b as [n l u w v], b' as [n' l' u' w' v'].
    destruct Ha as (D & i & f & lim & lo & up & _ & _ & _ & N & _ & _ & W & V). cbn in N, W, V. subst n w v.
    destruct Hb as (D' & i' & f' & lim' & lo' & up' & Q & _ & _ & N' & _ & _ & fam & n1 & v1 & -> & S1 & V' & _ & W'). cbn in N', W', V'. subst n' v'.
    pose proof (eq_trans (eq_sym Q2) Q) as Q3. injection Q3 as <- Q3 _. rename Q into Q0, Q3 into Q. destruct i' as [|[|i']]; try (cbn in Q; lia). cbn in S1. injection S1 as <- <-. cbn in W'.
    destruct w'; [exfalso; apply W'; reflexivity|].
    assert (ND : NoDup [txt "a"; txt "b"]) by (repeat constructor; cbn; intuition discriminate).
    split; [exact ND|]. match goal with |- ?A /\ _ => assert (Re : A) by (intros b [<-|[<-|[]]]; vm_compute; intuition discriminate) end.
    split; [exact Re|]. assert (Kd : In (txt "kde") three_kinds) by (right; left; reflexivity). split; [exact Kd|]. split; [reflexivity|]. split; [|split].
    + left. eexists. split; [right; left; reflexivity|]. split; [reflexivity|]. split; [discriminate|]. right. cbn. intro E. injection E as E. lra.
    + intros [(b & [<-|[<-|[]]] & E & _ & D0)|(name & s & I0 & E & _)].
      * discriminate E.
      * destruct D0 as [D0|D0]; [discriminate D0 | apply D0; reflexivity].
      * cbn [In] in I0. destruct I0 as [I0|[I0|[I0|[I0|[]]]]]; inversion I0; subst; discriminate E.
    + match goal with |- exists ws, textboxes ?l _ = _ /\ last (drawings _ _ ?h) ?d = _ =>
        destruct (C84_received l (txt "kde") h d ND Re Kd) as (ws & E & D0) end. exists ws. split; [exact E|]. exact D0.
Qed.
(** A parameter zzz with a default that no line of that function mentions. *)
Example C84_unused_case float : explorer_opens float (show explorer_lines) [(txt "a", Number (Fin 3)); (txt "b", Number (Fin 1)); (txt "zzz", Number (Fin 1))] EPreliz = Err KeyError.
Proof.
  unfold explorer_opens. cbn [map fst].
  assert (P : exists m, parse_function_for_pred_textboxes (erase comment (show explorer_lines)) [txt "a"; txt "b"; txt "zzz"] EPreliz = Ok m /\
    dict_find m (txt "a") = Some (Fam Normal, 0%Z, None) /\ dict_find m (txt "b") = Some (Fam Normal, 1%Z, Some (txt "exp")) /\ dict_find m (txt "zzz") = None).
  { eexists. split; [vm_compute; reflexivity|]. vm_compute. auto. }
  destruct P as (m & -> & A & B & C). cbn [bind parameter_boxes]. rewrite A, B, C. reflexivity.
Qed.
(** In a box for whole numbers 7.9 is 7 and nan is ignored. *)
Example C84_whole_case : forall v, held (mkBox (txt "n") (Fin 0) PInf true (Fin v)) [Typed (txt "n") (Fin (79 / 10)); Typed (txt "m") (Fin 4); Typed (txt "n") NaN] = Fin 7.
Proof.
  intro v. cbn. destruct (Rltb_spec (79 / 10) 0); [lra|]. f_equal.
  assert (Int_part (79 / 10) = 7)%Z as ->; [|reflexivity]. unfold Int_part. rewrite <- (tech_up (79 / 10) 8) by (cbn; lra). reflexivity.
Qed.
Print Assumptions C84_boxes.
Print Assumptions C84_received.
Print Assumptions C84_redrawn.
Print Assumptions C84_layout.
Print Assumptions C84_session.
Print Assumptions C84_array_refuted.
Print Assumptions C84_unused_refuted.
Print Assumptions C84_integer_default_refuted.
Print Assumptions C84_limits_refuted.
