(** C72: the plot function calls the right method with the values given, and multivariate distributions are drawn one marginal
    to a panel. *)
From Coq Require Import List Bool String Reals Arith Lia Lra.
From Verif Require Import Base GeoModel PlotModel.
Import ListNotations.
Open Scope string_scope.
Open Scope list_scope.

(* ------------------------------------------------------------------ specification *)
Section Spec.
Context {X : Type}.
(** The documented parameters of plot and their defaults. *)
Definition documented : list (string * val X) :=
  [("kind", VStr "pdf"); ("moments", VNone); ("marginals", VBool true); ("pointinterval", VBool false); ("interval", VNone);
   ("levels", VNone); ("support", VStr "restricted"); ("baseline", VBool true); ("legend", VStr "legend"); ("figsize", VNone);
   ("ax", VNone)].
(** [v] is what the call says about [p], or else the default. *)
Inductive asked (call : keywords X) (p : string) : val X -> Prop :=
| asked_given v : lookup p call = Some v -> asked call p v
| asked_default v : lookup p call = None -> In (p, v) documented -> asked call p v.
(** Keywords plot does not know: they are for matplotlib. *)
Definition for_matplotlib (call : keywords X) : keywords X :=
  filter (fun kv => negb (existsb (String.eqb (fst kv)) (map fst documented))) call.
(** The parameters that a method for [kind] has. *)
Definition parameters (multivariate : bool) (kind : string) : list string :=
  (if multivariate then (if String.eqb kind "pdf" then ["marginals"] else []) else ["moments"]) ++
  ["pointinterval"; "interval"; "levels"] ++
  (if (String.eqb kind "ppf" || String.eqb kind "isf")%bool then [] else ["support"]) ++
  (if String.eqb kind "pdf" then ["baseline"] else []) ++ ["legend"; "figsize"; "ax"].
End Spec.

(* ------------------------------------------------------------------ dictionaries *)
Section Dict.
Context {X : Type}.
Implicit Types (l a e call : keywords X) (k : string).
Lemma lookup_none k l : lookup k l = None <-> ~ In k (map fst l).
Proof using.
  induction l as [|[k' v] l IH]; cbn [lookup map fst In]; [tauto|]. destruct (String.eqb_spec k k') as [->|N].
  - split; [discriminate|]. intro H. exfalso. apply H. now left.
  - rewrite IH. intuition congruence.
Qed.
Lemma has_false k l : has k l = false <-> ~ In k (map fst l).
Proof using. unfold has. rewrite <- lookup_none. destruct (lookup k l); intuition congruence. Qed.
Lemma has_keys k l : has k l = existsb (String.eqb k) (map fst l).
Proof using.
  unfold has. induction l as [|[k' v] l IH]; cbn [lookup map fst existsb]; [reflexivity|]. destruct (String.eqb k k'); [reflexivity|]. exact IH.
Qed.
Lemma lookup_app k a e : lookup k (a ++ e) = match lookup k a with Some v => Some v | None => lookup k e end.
Proof using. induction a as [|[k' v] a IH]; cbn [app lookup]; [reflexivity|]. destruct (String.eqb k k'); [reflexivity|exact IH]. Qed.
Lemma filter_none {A} (f : A -> bool) (l : list A) : (forall x, In x l -> f x = false) -> filter f l = [].
Proof using. induction l as [|x l IH]; intro H; [reflexivity|]. cbn. rewrite H by now left. apply IH. intros. apply H. now right. Qed.
Lemma filter_all {A} (f : A -> bool) (l : list A) : (forall x, In x l -> f x = true) -> filter f l = l.
Proof using. induction l as [|x l IH]; intro H; [reflexivity|]. cbn. rewrite H by now left. f_equal. apply IH. intros. apply H. now right. Qed.

(** Calling with all the parameters [a] and other keywords [e]. *)
Lemma call_split s a e : (forall k, In k (map fst e) -> ~ In k (map fst (s_params s))) ->
  (forall k, In k (map fst a) -> In k (map fst (s_params s))) ->
  call_two s a e = match s_kwargs s, e with
                   | false, _ :: _ => Err TypeError
                   | _, _ => Ok (map (fun pd => (fst pd, match lookup (fst pd) a with Some v => v | None => snd pd end)) (s_params s), e)
                   end.
Proof using.
  intros E A. unfold call_two.
  assert (D : existsb (fun kv => has (fst kv) a) e = false).
  { apply not_true_is_false. intro H. apply existsb_exists in H as ([k v] & I & H). cbn in H.
    assert (In k (map fst e)) by (apply in_map_iff; exists (k, v); auto).
    assert (has k a = false) by (apply has_false; intro K; apply (E k); auto). congruence. }
  rewrite D. unfold bind_call.
  assert (F : filter (fun kv => negb (has (fst kv) (s_params s))) (a ++ e) = e).
  { rewrite filter_app, filter_none, filter_all; [reflexivity| |].
    - intros [k v] I. cbn. apply negb_true_iff, has_false, E. apply in_map_iff. exists (k, v). auto.
    - intros [k v] I. cbn. apply negb_false_iff. rewrite has_keys. apply existsb_exists. exists k. split; [|apply String.eqb_refl].
      apply A. apply in_map_iff. exists (k, v). auto. }
  rewrite F. cbn zeta.
  assert (M : map (fun pd : string * val X => (fst pd, match lookup (fst pd) (a ++ e) with Some v => v | None => snd pd end)) (s_params s) =
              map (fun pd => (fst pd, match lookup (fst pd) a with Some v => v | None => snd pd end)) (s_params s)).
  { apply map_ext_in. intros [p d] I. cbn. rewrite lookup_app. destruct (lookup p a); [reflexivity|].
    assert (lookup p e = None) as -> by (apply lookup_none; intro K; apply (E p K); apply in_map_iff; exists (p, d); auto). reflexivity. }
  rewrite M. reflexivity.
Qed.

Lemma for_matplotlib_eq call : filter (fun kv => negb (has (fst kv) (s_params (@plot_sig X)))) call = for_matplotlib call.
Proof using. unfold for_matplotlib. apply filter_ext. intros [k v]. cbn [fst]. now rewrite has_keys. Qed.
Lemma for_matplotlib_keys call k : In k (map fst (for_matplotlib call)) -> ~ In k (map fst (s_params (@plot_sig X))).
Proof using.
  intros I K. apply in_map_iff in I as ([k' v] & <- & I). unfold for_matplotlib in I. apply filter_In in I as [_ I].
  apply negb_true_iff in I. cbn [fst] in *. assert (existsb (String.eqb k') (map fst (@documented X)) = true).
  { apply existsb_exists. exists k'. split; [exact K|apply String.eqb_refl]. } congruence.
Qed.
End Dict.

Section Dispatch.
Context {X : Type}.
Implicit Types (call : keywords X).

(** The value of a parameter after binding. *)
Definition value call (p : string) (d : val X) : val X := match lookup p call with Some v => v | None => d end.
Definition bound call : list (string * val X) := map (fun pd => (fst pd, value call (fst pd) (snd pd))) documented.
Definition kept (multivariate : bool) (kind : string) call : keywords X :=
  map (fun p => (p, match lookup p (bound call) with Some v => v | None => VNone end)) (parameters multivariate kind).

Lemma plot_unfold mv call : plot mv call =
  match value call "kind" (VStr "pdf") with
  | VStr kind => if existsb (String.eqb kind) kinds then
      match mv, for_matplotlib call with true, _ :: _ => Err TypeError | _, e => Ok (kind, (kept mv kind call, e)) end
      else Err ValueError
  | _ => Err ValueError
  end.
Proof using.
  unfold plot. unfold bind_call at 1. cbn [s_kwargs plot_sig]. rewrite for_matplotlib_eq. fold (@documented X).
  cbn zeta. change (s_params (@plot_sig X)) with (@documented X).
  match goal with |- context [map ?f (@documented X)] => change (map f (@documented X)) with (bound call) end.
  cbn [bind].
  assert (K : lookup "kind" (bound call) = Some (value call "kind" (VStr "pdf"))) by reflexivity. rewrite K.
  destruct (value call "kind" (VStr "pdf")) as [|b|kind|x]; try reflexivity.
  destruct (existsb (String.eqb kind) kinds) eqn:V; [|reflexivity].
  pose proof (for_matplotlib_keys call) as E.
  assert (kind = "pdf" \/ kind = "cdf" \/ kind = "ppf" \/ kind = "sf" \/ kind = "isf") as Hk.
  { cbn in V. repeat (apply orb_true_iff in V as [V|V]; [apply String.eqb_eq in V; auto 10|]). discriminate V. }
  clear V K. assert (Q : forall mv, (forall k, In k (map fst (for_matplotlib call)) -> ~ In k (map fst (s_params (@method_sig X mv kind))))).
  { intros mv' k I J. apply (E k I). clear -Hk J. destruct mv'; destruct Hk as [->|[->|[->|[->| ->]]]]; cbn in J |- *; intuition. }
  set (L := bound call) in *. assert (HL : L = bound call) by reflexivity. clearbody L.
  destruct mv; (rewrite call_split; [|exact (Q _)|]).
  - destruct (for_matplotlib call) as [|kv r].
    + destruct Hk as [->|[->|[->|[->| ->]]]]; rewrite HL; reflexivity.
    + reflexivity.
  - destruct Hk as [->|[->|[->|[->| ->]]]]; cbn; intros k H; intuition.
  - destruct Hk as [->|[->|[->|[->| ->]]]]; rewrite HL; reflexivity.
  - destruct Hk as [->|[->|[->|[->| ->]]]]; cbn; intros k H; intuition.
Qed.

Lemma parameters_documented mv kind p : In p (parameters mv kind) -> exists d, In (p, d) (@documented X) /\ lookup p (@documented X) = Some d.
Proof using.
  intro H. assert (In p ["moments"; "marginals"; "pointinterval"; "interval"; "levels"; "support"; "baseline"; "legend"; "figsize"; "ax"]) as K.
  { unfold parameters in H. repeat rewrite in_app_iff in H. destruct mv, (String.eqb kind "pdf"), (String.eqb kind "ppf" || String.eqb kind "isf")%bool;
      cbn in H |- *; intuition. }
  clear H. cbn in K. repeat (destruct K as [<-|K]; [eexists; split; [|reflexivity]; cbn; auto 15|]). contradiction.
Qed.
Lemma bound_asked call p v : In p (map fst (@documented X)) -> lookup p (bound call) = Some v -> asked call p v.
Proof using.
  intros I H.
  assert (In p ["kind"; "moments"; "marginals"; "pointinterval"; "interval"; "levels"; "support"; "baseline"; "legend"; "figsize"; "ax"]) as K by exact I.
  clear I. cbn [In] in K.
  repeat (destruct K as [<-|K];
    [cbn in H; injection H as <-; unfold value;
     match goal with |- asked _ ?p _ => destruct (lookup p call) eqn:E; [now apply asked_given|apply asked_default; [exact E|cbn; auto 15]] end|]).
  contradiction.
Qed.

(** For a valid kind, plot calls the method of that kind and gives each of its parameters the value in the call or the documented
    default; what plot does not know goes to matplotlib. Only unknown keywords for a multivariate distribution are refused. *)
Theorem C72_dispatch : forall mv call kind, asked call "kind" (VStr kind) -> In kind ["pdf"; "cdf"; "ppf"; "sf"; "isf"] ->
  (mv = true -> for_matplotlib call = []) ->
  exists args, plot mv call = Ok (kind, (args, for_matplotlib call)) /\
    map fst args = parameters mv kind /\ Forall (fun pv => asked call (fst pv) (snd pv)) args.
Proof using.
  intros mv call kind A V M. exists (kept mv kind call). split; [|split].
  - rewrite plot_unfold.
    assert (K : value call "kind" (VStr "pdf") = VStr kind).
    { unfold value. inversion A as [v E|v E I]; subst; rewrite E; [reflexivity|]. cbn in I.
      repeat (destruct I as [I|I]; [congruence|]). contradiction. }
    rewrite K. assert (existsb (String.eqb kind) kinds = true) as -> by (apply existsb_exists; exists kind; split; [exact V|apply String.eqb_refl]).
    destruct mv; [|reflexivity]. rewrite (M eq_refl). reflexivity.
  - unfold kept. rewrite map_map. cbn. now rewrite map_id.
  - unfold kept. apply Forall_map, Forall_forall. intros q I. cbn [fst snd].
    destruct (parameters_documented mv kind q I) as (d & D & _).
    assert (ID : In q (map fst (@documented X))) by (apply in_map_iff; exists (q, d); auto).
    apply bound_asked; [exact ID|]. destruct (lookup q (bound call)) eqn:E; [reflexivity|]. exfalso.
    apply lookup_none in E. apply E. unfold bound. rewrite map_map. exact ID.
Qed.

(** Any other kind is a ValueError, unknown keywords for a multivariate distribution are a TypeError. *)
Theorem C72_errors : forall mv call v, asked call "kind" v ->
  ((forall kind, v = VStr kind -> ~ In kind ["pdf"; "cdf"; "ppf"; "sf"; "isf"]) -> plot mv call = Err ValueError) /\
  (forall kind, v = VStr kind -> In kind ["pdf"; "cdf"; "ppf"; "sf"; "isf"] -> mv = true -> for_matplotlib call <> [] -> plot mv call = Err TypeError).
Proof using.
  intros mv call v A. rewrite plot_unfold.
  assert (value call "kind" (VStr "pdf") = v) as ->.
  { unfold value. inversion A as [v' E|v' E I]; subst; rewrite E; [reflexivity|]. cbn in I. repeat (destruct I as [I|I]; [congruence|]). contradiction. }
  split.
  - intro N. destruct v as [|b|kind|x]; try reflexivity. specialize (N kind eq_refl).
    destruct (existsb (String.eqb kind) kinds) eqn:E; [|reflexivity]. exfalso. apply N. apply existsb_exists in E as (k & I & Q).
    apply String.eqb_eq in Q. now subst.
  - intros kind -> I -> N. assert (existsb (String.eqb kind) kinds = true) as -> by (apply existsb_exists; exists kind; split; [exact I|apply String.eqb_refl]).
    destruct (for_matplotlib call); [congruence|reflexivity].
Qed.

(** Keywords that only plot has, or that plot ignores for this kind. *)
Definition not_for_method (multivariate : bool) (kind : string) : list string :=
  filter (fun p => negb (existsb (String.eqb p) (parameters multivariate kind))) (map fst (@documented X)).
(** plot(dist, kind=k, ...) is dist.plot_k(...), for univariate distributions; for multivariate ones too if legend and, where it
    exists, support are given. *)
Theorem C72_same_as_method : forall mv kind call, In kind ["pdf"; "cdf"; "ppf"; "sf"; "isf"] ->
  (forall k, In k (map fst call) -> ~ In k (not_for_method mv kind)) ->
  (mv = true -> In "legend" (map fst call) /\ (In "support" (parameters true kind) -> In "support" (map fst call))) ->
  plot mv (("kind", VStr kind) :: call) =
  match bind_call (method_sig mv kind) call with Ok c => Ok (kind, c) | Err e => Err e end.
Proof using.
  intros mv kind call V N D. rewrite plot_unfold.
  assert (value (("kind", VStr kind) :: call) "kind" (VStr "pdf") = VStr kind) as -> by reflexivity.
  assert (existsb (String.eqb kind) kinds = true) as -> by (apply existsb_exists; exists kind; split; [exact V|apply String.eqb_refl]).
  assert (E : for_matplotlib (("kind", VStr kind) :: call) = filter (fun kv => negb (has (fst kv) (s_params (@method_sig X mv kind)))) call).
  { unfold for_matplotlib. cbn [filter fst]. change (negb (existsb (String.eqb "kind") (map fst (@documented X)))) with false. cbn iota.
    apply filter_ext_in. intros [k v] I. cbn [fst]. rewrite has_keys. f_equal. apply eq_true_iff_eq. rewrite !existsb_exists.
    assert (NK : ~ In k (not_for_method mv kind)) by (apply N; apply in_map_iff; exists (k, v); auto).
    assert (P : map fst (s_params (@method_sig X mv kind)) = parameters mv kind).
    { clear -V. destruct mv; cbn in V; destruct V as [<-|[<-|[<-|[<-|[<-|[]]]]]]; reflexivity. }
    rewrite P. split; intros (q & I1 & Q); apply String.eqb_eq in Q; subst q; exists k; (split; [|apply String.eqb_refl]).
    - destruct (existsb (String.eqb k) (parameters mv kind)) eqn:X0.
      + apply existsb_exists in X0 as (q & I2 & Q). apply String.eqb_eq in Q. now subst.
      + exfalso. apply NK. unfold not_for_method. apply filter_In. split; [exact I1|]. now rewrite X0.
    - destruct (parameters_documented mv kind k I1) as (d & I2 & _). apply in_map_iff. exists (k, d). auto. }
  rewrite E. clear E N.
  assert (G : map (fun pd => (fst pd, match lookup (fst pd) call with Some v => v | None => snd pd end)) (s_params (@method_sig X mv kind)) =
              kept mv kind (("kind", VStr kind) :: call)).
  { assert (Z : mv = true -> (exists v, lookup "legend" call = Some v) /\ (In "support" (parameters true kind) -> exists v, lookup "support" call = Some v)).
    { intro Em. destruct (D Em) as [D1 D2]. split.
      - destruct (lookup "legend" call) eqn:L; [eauto|]. apply lookup_none in L. contradiction.
      - intro I. destruct (lookup "support" call) eqn:L; [eauto|]. apply lookup_none in L. exfalso. auto. }
    clear D. destruct mv.
    - destruct (Z eq_refl) as [[v1 Z1] Z2]. clear Z. cbn in V.
      destruct V as [<-|[<-|[<-|[<-|[<-|[]]]]]]; cbn in Z2;
        first [destruct Z2 as [v2 Z2]; [solve [auto 10]|]; unfold kept, bound, value; cbn; rewrite Z1, Z2
               |unfold kept, bound, value; cbn; rewrite Z1]; reflexivity.
    - cbn in V. destruct V as [<-|[<-|[<-|[<-|[<-|[]]]]]]; reflexivity. }
  unfold bind_call. rewrite G. destruct mv; [|reflexivity]. cbn [method_sig multivariate_sig s_kwargs].
  destruct (filter _ call); reflexivity.
Qed.
End Dispatch.

(* ------------------------------------------------------------------ one panel for each marginal *)
Section Panels.
Context {X B : Type}.
Variables (endpoints : B -> R * R) (max_pdf max_ppf : B -> R) (axis : nat -> X).
Let draw := plot_marginals endpoints max_pdf max_ppf axis.

Lemma grid_size n : (n <= fst (get_cols_rows n) * snd (get_cols_rows n))%nat.
Proof using.
  unfold get_cols_rows. destruct (Nat.leb_spec n 3); cbn [fst snd]; [lia|].
  pose proof (Nat.div_mod (n + 2) 3 ltac:(lia)). pose proof (Nat.mod_upper_bound (n + 2) 3 ltac:(lia)). lia.
Qed.
Lemma grid_one n : (2 <= n)%nat -> Nat.eqb (fst (get_cols_rows n) * snd (get_cols_rows n)) 1 = false.
Proof using. intro H. apply Nat.eqb_neq. pose proof (grid_size n). lia. Qed.

(** Draws marginal [m] on axis [i] with the options asked for: the method of that kind accepts the call, gets those options, no
    moments and no legend of its own, and nothing else. *)
Definition draws_with (representation : string) (o : options X) (panel : nat * B * keywords X) : Prop :=
  exists args, bind_call (univariate_sig representation) (snd panel) = Ok (args, []) /\
    (forall p v, lookup p args = Some v ->
       match p with
       | "pointinterval" => v = op_pointinterval o
       | "interval" => v = op_interval o
       | "levels" => v = op_levels o
       | "support" => v = op_support o
       | "baseline" => v = op_baseline o
       | "legend" => v = VBool false
       | "ax" => v = VObj (axis (fst (fst panel)))
       | _ => v = VNone
       end) /\ map fst args = parameters false representation.

Lemma call_draws rep o i (m : B) : In rep ["pdf"; "cdf"; "ppf"; "sf"; "isf"] ->
  draws_with rep o (i, m, marginal_call rep o (VObj (axis i))).
Proof using.
  intro V. unfold draws_with. cbn [fst snd]. cbn in V.
  assert (K : forall p v (a : keywords X), lookup p a = Some v -> In (p, v) a).
  { clear. induction a as [|[q w] a IH]; cbn; [discriminate|]. destruct (String.eqb_spec p q) as [->|]; [intros [= ->]; now left|auto]. }
  destruct V as [<-|[<-|[<-|[<-|[<-|[]]]]]]; (eexists; split; [reflexivity|]; split; [|reflexivity]; intros p v H; apply K in H; cbn in H;
    repeat (destruct H as [H|H]; [injection H as <- <-; reflexivity|]); contradiction).
Qed.

(** Given an array of axes and no title: the marginals are drawn in order on the axes there are, the axes left over are removed. *)
Theorem C72_given_axes : forall margs rep o legend n, In rep ["pdf"; "cdf"; "ppf"; "sf"; "isf"] -> legend <> VStr "title" ->
  exists d, draw margs rep o legend (Axes n) Auto = Ok d /\
    map fst (d_panels d) = combine (seq 0 n) margs /\ Forall (draws_with rep o) (d_panels d) /\
    d_removed d = seq (List.length margs) (n - List.length margs) /\ d_grid d = None /\
    d_title d = NoTitle /\ d_xlim d = None /\ d_ylim d = None.
Proof using.
  intros margs rep o legend n V L. unfold draw, plot_marginals. destruct (get_cols_rows (List.length margs)) as [c r]. cbn [bind is_auto negb andb].
  match goal with |- context [mkDrawing ?a ?b ?c ?x ?y ?t] => set (d0 := mkDrawing a b c x y t) end.
  exists d0. split.
  - destruct legend as [|b|s|x]; try reflexivity. destruct (string_dec s "title") as [->|N]; [congruence|].
    repeat (let a := fresh in destruct s as [|a s]; [reflexivity|]; destruct a as [[] [] [] [] [] [] [] []]; try reflexivity).
    destruct s; [|reflexivity]. congruence.
  - unfold d0. cbn. rewrite map_map. cbn. repeat split; try reflexivity.
    + rewrite map_ext with (g := fun x => x) by now intros []. apply map_id.
    + apply Forall_map, Forall_forall. intros [i m] _. now apply call_draws.
Qed.

(** Without axes: a grid with one cell for each marginal, in order, and no other cell is left. The title is there exactly when
    legend is "title". *)
Theorem C72_panels : forall margs rep o legend, (2 <= List.length margs)%nat -> In rep ["pdf"; "cdf"; "ppf"; "sf"; "isf"] ->
  exists d rows cols, draw margs rep o legend NoAxes Auto = Ok d /\ d_grid d = Some (rows, cols) /\
    map fst (d_panels d) = combine (seq 0 (List.length margs)) margs /\ Forall (draws_with rep o) (d_panels d) /\
    (forall i, (i < rows * cols)%nat -> In i (d_removed d) <-> ~ In i (map (fun p => fst (fst p)) (d_panels d))) /\
    (List.length margs <= rows * cols)%nat /\
    (d_title d = FigureTitle <-> legend = VStr "title") /\ d_xlim d = None /\ d_ylim d = None.
Proof using.
  intros margs rep o legend H2 V. unfold draw, plot_marginals. pose proof (grid_one _ H2) as G1. pose proof (grid_size (List.length margs)) as G2.
  destruct (get_cols_rows (List.length margs)) as [c r]. cbn [fst snd] in *. rewrite G1. cbn [bind is_auto negb andb].
  match goal with |- context [mkDrawing ?a ?b ?c ?x ?y NoTitle] => set (d0 := mkDrawing a b c x y) end.
  assert (Q : forall n (l : list B) s, (List.length l <= n)%nat -> combine (seq s n) l = combine (seq s (List.length l)) l).
  { induction n as [|n IH]; intros l s H; [now destruct l; [|cbn in H; lia]|]. destruct l as [|b l]; [reflexivity|]. cbn in *. f_equal. apply IH. lia. }
  assert (P : map fst (d_panels (d0 NoTitle)) = combine (seq 0 (List.length margs)) margs).
  { unfold d0. cbn. rewrite map_map. cbn. rewrite map_ext with (g := fun x => x) by now intros []. rewrite map_id. now apply Q. }
  assert (F : Forall (draws_with rep o) (d_panels (d0 NoTitle))).
  { unfold d0. cbn. apply Forall_map, Forall_forall. intros [i m] _. now apply call_draws. }
  assert (R : forall i, (i < c * r)%nat -> In i (d_removed (d0 NoTitle)) <-> ~ In i (map (fun p => fst (fst p)) (d_panels (d0 NoTitle)))).
  { intros i Hi. rewrite <- (map_map fst fst), P.
    assert (map fst (combine (seq 0 (List.length margs)) margs) = seq 0 (List.length margs)) as ->.
    { assert (forall (a : list nat) (b : list B), List.length a = List.length b -> map fst (combine a b) = a) as E.
      { clear. induction a as [|x a IH]; intros [|y b] H; try reflexivity; try discriminate H. cbn. f_equal. apply IH. now injection H. }
      apply E. now rewrite seq_length. }
    unfold d0. cbn [d_removed]. rewrite !in_seq. lia. }
  assert (T : exists t, (match legend with VStr "title" => Ok (d0 FigureTitle) | _ => Ok (d0 NoTitle) end) = Ok (d0 t) /\ (t = FigureTitle <-> legend = VStr "title")).
  { destruct legend as [|b|s|x]; try (exists NoTitle; split; [reflexivity|split; discriminate]).
    destruct (string_dec s "title") as [->|N]; [exists FigureTitle; split; [reflexivity|tauto]|].
    exists NoTitle. split; [|split; [discriminate|congruence]].
    repeat (let a := fresh in destruct s as [|a s]; [reflexivity|]; destruct a as [[] [] [] [] [] [] [] []]; try reflexivity).
    destruct s; [|reflexivity]. congruence. }
  destruct T as (t & T1 & T2). exists (d0 t), c, r. split; [exact T1|]. split; [reflexivity|]. split; [exact P|]. split; [exact F|].
  split; [exact R|]. split; [exact G2|]. split; [exact T2|]. split; reflexivity.
Qed.

(** The interactive plot (limits "both" or four numbers) can draw every kind it offers. *)
Theorem C72_interactive : forall margs rep o legend xy, (2 <= List.length margs)%nat -> In rep ["pdf"; "cdf"; "ppf"] ->
  exists d, draw margs rep o legend NoAxes xy = Ok d /\ map fst (d_panels d) = combine (seq 0 (List.length margs)) margs /\
    Forall (draws_with rep o) (d_panels d).
Proof using.
  intros margs rep o legend xy H2 V. unfold draw, plot_marginals. pose proof (grid_one _ H2) as G1. pose proof (grid_size (List.length margs)) as G2.
  destruct (get_cols_rows (List.length margs)) as [c r]. cbn [fst snd] in *. rewrite G1. cbn [bind].
  assert (NE : forall {A C} (f : A -> option C) l, (forall x, f x <> None) -> existsb (fun l => match l with None => true | _ => false end) (map f l) = false).
  { intros A C f l N. induction l as [|x l IH]; [reflexivity|]. cbn. specialize (N x). destruct (f x); [exact IH|congruence]. }
  assert (NX : (negb (is_auto xy) && negb (String.eqb rep "ppf") && existsb (fun l => match l with None => true | _ => false end)
     (map (fun im : nat * B => xlim_of endpoints xy (snd im)) (combine (seq 0 (c * r)) margs)))%bool = false).
  { destruct xy; [reflexivity| |]; rewrite NE by (intros x; discriminate); apply andb_false_r. }
  assert (NY : (negb (is_auto xy) && negb (String.eqb rep "cdf") && existsb (fun l => match l with None => true | _ => false end)
     (map (fun im : nat * B => ylim_of max_pdf max_ppf xy rep (snd im)) (combine (seq 0 (c * r)) margs)))%bool = false).
  { destruct xy; [reflexivity| |].
    - cbn in V. destruct V as [<-|[<-|[<-|[]]]]; [|reflexivity|]; (rewrite NE by (intros x; discriminate); apply andb_false_r).
    - rewrite NE by (intros x; discriminate). apply andb_false_r. }
  rewrite NX, NY. clear NX NY.
  match goal with |- context [mkDrawing ?a ?b ?c ?x ?y NoTitle] => set (d0 := mkDrawing a b c x y) end.
  assert (Q : forall n (l : list B) s, (List.length l <= n)%nat -> combine (seq s n) l = combine (seq s (List.length l)) l).
  { induction n as [|n IH]; intros l s H; [now destruct l; [|cbn in H; lia]|]. destruct l as [|b l]; [reflexivity|]. cbn in *. f_equal. apply IH. lia. }
  assert (P : forall t, map fst (d_panels (d0 t)) = combine (seq 0 (List.length margs)) margs).
  { intro t. unfold d0. cbn. rewrite map_map. cbn. rewrite map_ext with (g := fun x => x) by now intros []. rewrite map_id. now apply Q. }
  assert (F : forall t, Forall (draws_with rep o) (d_panels (d0 t))).
  { intro t. unfold d0. cbn. apply Forall_map, Forall_forall. intros [i m] _. apply call_draws. cbn in *. intuition. }
  assert (T : exists t, (match legend with VStr "title" => Ok (d0 FigureTitle) | _ => Ok (d0 NoTitle) end) = Ok (d0 t)).
  { destruct legend as [|b|s|x]; try (now exists NoTitle).
    destruct (string_dec s "title") as [->|N]; [now exists FigureTitle|]. exists NoTitle.
    repeat (let a := fresh in destruct s as [|a s]; [reflexivity|]; destruct a as [[] [] [] [] [] [] [] []]; try reflexivity).
    destruct s; [|reflexivity]. congruence. }
  destruct T as [t T]. exists (d0 t). split; [exact T|]. split; [apply P|apply F].
Qed.

(** The limits the panels end up with: those the user gives, or with "both" the ends of the last marginal and a band around its
    density or quantiles; the horizontal axis of a quantile function and the vertical one of a cumulative distribution function are
    left alone. *)
Theorem C72_limits : forall margs last rep o legend xy d, draw (margs ++ [last]) rep o legend NoAxes xy = Ok d ->
  In rep ["pdf"; "cdf"; "ppf"] -> xy <> Auto ->
  d_xlim d = (if string_dec rep "ppf" then None else match xy with Manual a b _ _ => Some (a, b) | _ => Some (endpoints last) end) /\
  d_ylim d = (if string_dec rep "cdf" then None else
              match xy with
              | Manual _ _ a b => Some (a, b)
              | _ => let top := if string_dec rep "pdf" then max_pdf last else max_ppf last in Some (- (3 / 40 * top), 3 / 2 * top)%R
              end).
Proof using.
  intros margs last rep o legend xy d H V N. unfold draw, plot_marginals in H. pose proof (grid_size (List.length (margs ++ [last]))) as G2.
  destruct (get_cols_rows (List.length (margs ++ [last]))) as [c r]. cbn [fst snd] in G2.
  destruct (Nat.eqb (c * r) 1) eqn:G1; [discriminate H|]. cbn [bind] in H.
  assert (S : exists s, combine (seq 0 (c * r)) (margs ++ [last]) = s ++ [(List.length margs, last)]).
  { rewrite app_length in G2. cbn in G2. exists (combine (seq 0 (List.length margs)) margs).
    replace (c * r)%nat with (List.length margs + (1 + (c * r - S (List.length margs))))%nat by lia. generalize (c * r - S (List.length margs))%nat. intro k.
    rewrite seq_app. cbn [plus seq].
    assert (E : forall (a : list nat) (l : list B) x y t, List.length a = List.length l -> combine (a ++ x :: t) (l ++ [y]) = combine a l ++ [(x, y)]).
    { clear. induction a as [|z a IH]; intros [|w l] x y t L; try discriminate L; [cbn; now destruct t|]. cbn. f_equal. apply IH. now injection L. }
    rewrite E by now rewrite seq_length. reflexivity. }
  destruct S as [s S]. rewrite S in H.
  assert (L : forall {A C} (f : A -> C) l x, last_opt (map f (l ++ [x])) = Some (f x)).
  { intros A C f l x. unfold last_opt. rewrite map_app, rev_app_distr. reflexivity. }
  rewrite !L in H.
  repeat match type of H with (if ?c then Err _ else _) = _ => destruct c; [discriminate H|] end.
  match type of H with context [mkDrawing ?a ?b ?c ?x ?y NoTitle] => set (x0 := x) in H; set (y0 := y) in H; set (d0 := mkDrawing a b c x0 y0) in H end.
  assert (D : d_xlim d = x0 /\ d_ylim d = y0).
  { assert (exists t, d = d0 t) as [t ->]; [|split; reflexivity].
    destruct legend as [|b|str|x]; try (injection H as <-; eexists; reflexivity).
    repeat (let a := fresh in destruct str as [|a str]; [injection H as <-; eexists; reflexivity|];
            destruct a as [[] [] [] [] [] [] [] []]; try (injection H as <-; eexists; reflexivity)). }
  destruct D as [-> ->]. unfold x0, y0. clear - V N. cbn [snd].
  destruct xy as [| |a b a' b']; [congruence| |]; cbn in V; destruct V as [<-|[<-|[<-|[]]]]; cbn; split; try reflexivity; f_equal; f_equal; lra.
Qed.

(** With marginals set to anything that counts as true the marginals are drawn. With None, False or the empty text the joint
    density is drawn for the one dimension that is supported, and any other is a ValueError. *)
Theorem C72_joint : forall joint_dim margs rep o legend axes xy flat marginals,
  let r := plot_multivariate endpoints max_pdf max_ppf axis joint_dim flat margs rep marginals o legend axes xy in
  (~ In marginals [VNone; VBool false; VStr ""] ->
     r = match plot_marginals endpoints max_pdf max_ppf axis margs rep o legend axes xy with Ok d => Ok (inl d) | Err e => Err e end) /\
  (In marginals [VNone; VBool false; VStr ""] ->
  (List.length margs <> joint_dim -> r = Err ValueError) /\
  (List.length margs = joint_dim -> flat = false -> (forall n, axes <> Axes n) ->
     exists t, r = Ok (inr (Some t)) /\ (t = AxesTitle <-> legend = VStr "title"))).
Proof using.
  intros jd margs rep o legend axes xy flat marginals r. unfold r, plot_multivariate, plot_joint. split.
  { intro N. assert (T : truth marginals = true).
    { destruct marginals as [|[]|str|x]; try reflexivity; [exfalso; apply N; cbn; auto|exfalso; apply N; cbn; auto|]. cbn. destruct (String.eqb_spec str ""); [subst; exfalso; apply N; cbn; auto|reflexivity]. }
    rewrite T. destruct (plot_marginals _ _ _ _ _ _ _ _ _ _); reflexivity. }
  intro F. assert (TF : truth marginals = false) by (destruct F as [<-|[<-|[<-|[]]]]; reflexivity). rewrite TF. clear TF F. split.
  - intro N. apply Nat.eqb_neq in N. now rewrite N.
  - intros -> -> A. rewrite Nat.eqb_refl.
    assert (T : exists t, (match legend with VStr "title" => AxesTitle | _ => NoTitle end) = t /\ (t = AxesTitle <-> legend = VStr "title")).
    { destruct legend as [|b|s|x]; try (exists NoTitle; split; [reflexivity|split; discriminate]).
      destruct (string_dec s "title") as [->|N]; [exists AxesTitle; split; [reflexivity|tauto]|].
      exists NoTitle. split; [|split; [discriminate|congruence]].
      repeat (let a := fresh in destruct s as [|a s]; [reflexivity|]; destruct a as [[] [] [] [] [] [] [] []]; try reflexivity).
      destruct s; [|reflexivity]. congruence. }
    destruct T as (t & T1 & T2). exists t. rewrite T1. split; [|exact T2]. destruct axes as [| |n]; try reflexivity. exfalso. eapply A. reflexivity.
Qed.
End Panels.

(* ------------------------------------------------------------------ examples and findings *)
Example C72_example :
  plot false [("kind", VStr "cdf"); ("color", VStr "k"); ("interval", VStr "hdi"); ("baseline", VBool false)] =
    Ok ("cdf", ([("moments", VNone); ("pointinterval", VBool false); ("interval", VStr "hdi"); ("levels", VNone); ("support", VStr "restricted");
                 ("legend", VStr "legend"); ("figsize", VNone); ("ax", VNone)], [("color", VStr (X:=nat) "k")])) /\
  asked (X:=nat) [("kind", VStr "cdf"); ("color", VStr "k")] "kind" (VStr "cdf") /\
  (forall k, In k (map fst [("color", VStr (X:=nat) "k"); ("interval", VStr "hdi")]) -> ~ In k (not_for_method (X:=nat) false "cdf")).
Proof.
  split; [vm_compute; reflexivity|]. split; [apply asked_given; reflexivity|]. intros k [<-|[<-|[]]] H; vm_compute in H;
    repeat (destruct H as [H|H]; [discriminate H|]); exact H.
Qed.
Definition spans (m : R * R) : R * R := m.
Definition o_example : options nat := mkOpts (VBool true) VNone VNone (VStr "full") (VBool true).
Example C72_grid_example : exists d, plot_marginals spans fst fst (fun i => i) [(0, 1); (2, 3); (4, 5); (6, 7)]%R "sf" o_example VNone NoAxes Auto = Ok d /\
  d_removed d = [4; 5]%nat /\ d_grid d = Some (3, 2)%nat /\ List.length (d_panels d) = 4%nat.
Proof. eexists. split; [reflexivity|]. repeat split. Qed.

(** Keywords for matplotlib (color, alpha, ...) are documented for plot, but multivariate distributions do not take them. *)
Theorem C72_keywords_refuted : ~ (forall (X : Type) mv (call : keywords X), lookup "kind" call = None -> exists r, plot mv call = Ok r).
Proof. intro H. destruct (H nat true [("color", VStr "k")] eq_refl) as [r E]. vm_compute in E. discriminate E. Qed.

(** plot(dist) is not dist.plot_pdf() for multivariate distributions: support and legend have other defaults, so that plot adds
    no title. *)
Theorem C72_defaults_refuted : ~ (forall (X : Type) mv kind, In kind ["pdf"; "cdf"; "ppf"; "sf"; "isf"] ->
  plot (X:=X) mv [("kind", VStr kind)] = match bind_call (method_sig mv kind) [] with Ok c => Ok (kind, c) | Err e => Err e end).
Proof. intro H. specialize (H nat true "pdf" ltac:(cbn; auto)). vm_compute in H. discriminate H. Qed.

(** Given axes, the title (the default legend of the methods) makes every plot of marginals fail after it has been drawn. *)
Theorem C72_axes_title_refuted : forall X B (e : B -> R * R) f g (axis : nat -> X) margs rep o n xy,
  plot_marginals e f g axis margs rep o (VStr "title") (Axes n) xy = Err NameError.
Proof.
  intros. unfold plot_marginals. destruct (get_cols_rows _). cbn [bind].
  repeat match goal with |- (if ?c then _ else _) = _ => destruct c; [reflexivity|] end. reflexivity.
Qed.

(** The marginal of a one-dimensional distribution cannot be drawn without axes. *)
Theorem C72_one_dimension_refuted : forall X B (e : B -> R * R) f g (axis : nat -> X) m rep o legend xy,
  plot_marginals e f g axis [m] rep o legend NoAxes xy = Err AttributeError.
Proof. reflexivity. Qed.

(** In the interactive plot the panels share their axes, and each marginal sets the limits for all: only the last one is sure to be
    in view. *)
Theorem C72_limits_refuted : ~ (forall B (e : B -> R * R) f g (axis : nat -> nat) margs o legend d,
  plot_marginals e f g axis margs "pdf" o legend NoAxes Both = Ok d ->
  forall m, In m margs -> exists lim, d_xlim d = Some lim /\ (fst lim <= fst (e m))%R /\ (snd (e m) <= snd lim)%R).
Proof.
  intro H. specialize (H (R * R)%type spans fst fst (fun i => i) [(0, 1); (99, 101)]%R o_example VNone _ eq_refl (0, 1)%R ltac:(now left)).
  destruct H as (lim & E & A & _). cbn in E. injection E as <-. cbn in A. lra.
Qed.

Print Assumptions C72_dispatch.
Print Assumptions C72_errors.
Print Assumptions C72_same_as_method.
Print Assumptions C72_given_axes.
Print Assumptions C72_panels.
Print Assumptions C72_interactive.
Print Assumptions C72_limits.
Print Assumptions C72_joint.
Print Assumptions C72_keywords_refuted.
Print Assumptions C72_defaults_refuted.
Print Assumptions C72_axes_title_refuted.
Print Assumptions C72_one_dimension_refuted.
Print Assumptions C72_limits_refuted.
