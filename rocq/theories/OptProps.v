(** Property theorems for the optimisation helpers: C26-C30. *)
From Coq Require Import List Bool String Reals ZArith Lra Lia Sorted Permutation.
From Verif Require Import Base RLists XR FamModel FamSpec FamProofs FamProps OptModel.
Import ListNotations.
Open Scope R_scope.

(* ---------------- C26 ---------------- *)
(** The parameters that are free, in declaration order. *)
Definition free_names {A} (getattr : string -> option A) (names : list string) : list string :=
  filter (fun k => match getattr k with None => true | Some _ => false end) names.

Lemma dict_set_fresh {A} (d : list (string * A)) k v : ~ In k (map fst d) -> dict_set d k v = (d ++ [(k, v)])%list.
Proof.
  induction d as [|[k' v'] d IH]; cbn; intro H; [reflexivity|].
  destruct (String.eqb_spec k k'); [subst; tauto|]. f_equal. apply IH. tauto.
Qed.
Lemma dict_get_in {A} (d : list (string * A)) k v : NoDup (map fst d) -> In (k, v) d -> dict_get d k = Some v.
Proof.
  induction d as [|[k' v'] d IH]; cbn; intros ND H; [contradiction|]. inversion ND; subst.
  destruct H as [H|H].
  - injection H as -> ->. rewrite String.eqb_refl. reflexivity.
  - destruct (String.eqb_spec k k'); [|auto]. subst. exfalso. apply H2. apply in_map_iff. exists (k', v). auto.
Qed.

(** What the loop should produce: walk over the names, fixed ones keep their value, free ones take the next one. *)
Fixpoint merge {A} (getattr : string -> option A) (names : list string) (v : list A) : list (string * A) :=
  match names with
  | [] => []
  | k :: r => match getattr k with
              | Some x => (k, x) :: merge getattr r v
              | None => match v with x :: v' => (k, x) :: merge getattr r v' | [] => [] end
              end
  end.

Lemma get_fixed_ge {A} (g : string -> option A) i names : forall j, In j (fst (get_fixed g i names)) -> (i <= j)%nat.
Proof.
  revert i. induction names as [|k r IH]; intros i j; cbn; [contradiction|].
  specialize (IH (S i)). destruct (get_fixed g (S i) r) as [ni fx]. destruct (g k); cbn in *.
  - intro H. apply IH in H. lia.
  - intros [<-|H]; [lia|]. apply IH in H. lia.
Qed.

Lemma get_params_loop_spec {A} (g : string -> option A) (names0 : list string) v0 ni0 fx0 : forall names i pdx fdx acc,
  (forall j, nth_error names j = nth_error names0 (i + j)) ->
  (forall j, (i <= j)%nat -> In j ni0 <-> In j (fst (get_fixed g i names))) ->
  (forall j, nth_error (snd (get_fixed g i names)) j = nth_error fx0 (fdx + j)) ->
  List.length v0 = (pdx + List.length (fst (get_fixed g i names)))%nat ->
  NoDup names -> (forall k, In k names -> ~ In k (map fst acc)) ->
  get_params_loop names0 v0 ni0 fx0 (seq i (List.length names)) pdx fdx acc = Ok (acc ++ merge g names (skipn pdx v0))%list.
Proof.
  induction names as [|k r IH]; intros i pdx fdx acc Hn Hni Hfx Hv ND Hacc; cbn [seq List.length get_params_loop merge].
  - rewrite app_nil_r. reflexivity.
  - pose proof (Hn 0%nat) as H0. rewrite Nat.add_0_r in H0. cbn in H0.
    unfold index at 1. rewrite <- H0. cbn [bind].
    inversion ND as [|? ? Hk Hr]; subst.
    pose proof (get_fixed_ge g (S i) r) as Hge.
    cbn [get_fixed] in Hni, Hfx, Hv. destruct (get_fixed g (S i) r) as [ni fx] eqn:E. cbn [fst snd] in *.
    destruct (g k) as [x|] eqn:Ek; cbn [fst snd] in *.
    + assert (X : existsb (Nat.eqb i) ni0 = false).
      { apply not_true_is_false. intro X. apply existsb_exists in X. destruct X as (j & Hj & Ej).
        apply Nat.eqb_eq in Ej. subst j. apply Hni in Hj; [|lia]. apply Hge in Hj. lia. }
      rewrite X. pose proof (Hfx 0%nat) as F0. rewrite Nat.add_0_r in F0. cbn in F0.
      unfold index. rewrite <- F0. cbn [bind]. rewrite dict_set_fresh by (apply Hacc; cbn; auto).
      rewrite (IH (S i) pdx (S fdx) (acc ++ [(k, x)])%list).
      * rewrite <- app_assoc. reflexivity.
      * intro j. specialize (Hn (S j)). cbn in Hn. rewrite Hn. f_equal. lia.
      * intros j Hj. rewrite E. cbn. apply Hni. lia.
      * intro j. rewrite E. replace (S fdx + j)%nat with (fdx + S j)%nat by lia. apply (Hfx (S j)).
      * rewrite E. exact Hv.
      * exact Hr.
      * intros k' Hk' Hin. rewrite map_app in Hin. apply in_app_or in Hin. destruct Hin as [Hin|[<-|[]]].
        -- apply (Hacc k'); cbn; auto.
        -- contradiction.
    + assert (X : existsb (Nat.eqb i) ni0 = true).
      { apply existsb_exists. exists i. split; [|apply Nat.eqb_refl]. apply Hni; [lia|]. cbn. auto. }
      rewrite X. cbn [List.length] in Hv.
      destruct (skipn pdx v0) as [|y v'] eqn:Es.
      { exfalso. apply (f_equal (@List.length _)) in Es. rewrite skipn_length in Es. cbn in Es. lia. }
      assert (Ny : nth_error v0 pdx = Some y).
      { rewrite <- (firstn_skipn pdx v0). rewrite nth_error_app2; rewrite firstn_length; [|lia].
        replace (pdx - Nat.min pdx (List.length v0))%nat with 0%nat by lia. rewrite Es. reflexivity. }
      assert (Sv : skipn (S pdx) v0 = v').
      { replace (S pdx) with (pdx + 1)%nat by lia. change (skipn (pdx + 1) v0 = v').
        assert (G : forall (l : list A) n m, skipn (n + m) l = skipn m (skipn n l)).
        { induction l; destruct n; cbn; intros; auto. destruct m; reflexivity. }
        rewrite G, Es. reflexivity. }
      unfold index. rewrite Ny. cbn [bind]. rewrite dict_set_fresh by (apply Hacc; cbn; auto).
      rewrite (IH (S i) (S pdx) fdx (acc ++ [(k, y)])%list).
      * rewrite Sv, <- app_assoc. reflexivity.
      * intro j. specialize (Hn (S j)). cbn in Hn. rewrite Hn. f_equal. lia.
      * intros j Hj. rewrite E. cbn [fst]. rewrite Hni by lia. cbn. split; [intros [X1|X1]; [lia|exact X1]|auto].
      * intro j. rewrite E. apply Hfx.
      * rewrite E. cbn [fst]. lia.
      * exact Hr.
      * intros k' Hk' Hin. rewrite map_app in Hin. apply in_app_or in Hin. destruct Hin as [Hin|[<-|[]]].
        -- apply (Hacc k'); cbn; auto.
        -- contradiction.
Qed.

Lemma get_params_spec {A} (g : string -> option A) names v ni fx :
  NoDup names -> get_fixed_params g names = (ni, fx) -> List.length v = List.length ni ->
  get_params names (List.length names) v ni fx = Ok (merge g names v).
Proof.
  intros ND E Hv. unfold get_fixed_params in E. unfold get_params.
  rewrite (get_params_loop_spec g names v ni fx names 0 0 0 []); rewrite ?E; cbn; auto; tauto.
Qed.
Lemma fixed_length {A} (g : string -> option A) names i : List.length (fst (get_fixed g i names)) = List.length (free_names g names).
Proof.
  revert i. induction names as [|k r IH]; intro i; cbn; [reflexivity|]. specialize (IH (S i)).
  destruct (get_fixed g (S i) r) as [a b]. destruct (g k); cbn [fst List.length] in *; [exact IH|f_equal; exact IH].
Qed.
Lemma merge_keys {A} (g : string -> option A) names : forall v, List.length v = List.length (free_names g names) ->
  map fst (merge g names v) = names.
Proof.
  induction names as [|k r IH]; intros v H; cbn in *; [reflexivity|]. destruct (g k); cbn.
  - f_equal. apply IH, H.
  - destruct v; [discriminate|]. cbn. f_equal. apply IH. injection H as H. exact H.
Qed.
Lemma merge_in {A} (g : string -> option A) names k x : forall v, List.length v = List.length (free_names g names) ->
  In k names -> g k = Some x -> In (k, x) (merge g names v).
Proof.
  induction names as [|k' r IH]; intros v H Hk E; cbn in *; [contradiction|]. destruct Hk as [->|Hk].
  - rewrite E. cbn. auto.
  - destruct (g k') eqn:E'; cbn.
    + right. apply IH; auto.
    + destruct v; [discriminate|]. right. apply IH; auto.
Qed.
Lemma F2_impl {A B} (P Q : A -> B -> Prop) l m : (forall a b, P a b -> Q a b) -> Forall2 P l m -> Forall2 Q l m.
Proof. intros H F. induction F; constructor; auto. Qed.
Lemma merge_free {A} (g : string -> option A) names : forall v, NoDup names ->
  List.length v = List.length (free_names g names) ->
  Forall2 (fun k x => In (k, x) (merge g names v)) (free_names g names) v.
Proof.
  induction names as [|k r IH]; intros v ND H; cbn in *.
  - destruct v; [constructor|discriminate].
  - inversion ND; subst. destruct (g k) eqn:E; cbn in *.
    + eapply F2_impl; [|apply IH; auto]. intros; right; auto.
    + destruct v as [|x v]; [discriminate|]. injection H as H. constructor; [left; reflexivity|].
      eapply F2_impl; [|apply IH; auto]. intros; right; auto.
Qed.

(** Whatever the subset of fixed parameters and whatever vector an optimiser proposes, the keyword arguments built from
    it name every parameter once, give each fixed parameter its own value, and give the free parameters the entries of
    the vector in declaration order. *)
Theorem C26_fixed_and_free : forall A (names : list string) (getattr : string -> option A) none_idx fixed v,
  NoDup names -> get_fixed_params getattr names = (none_idx, fixed) ->
  List.length v = List.length (free_names getattr names) ->
  exists kw, get_params names (List.length names) v none_idx fixed = Ok kw /\
    map fst kw = names /\
    (forall k x, In k names -> getattr k = Some x -> dict_get kw k = Some x) /\
    Forall2 (fun k x => dict_get kw k = Some x) (free_names getattr names) v.
Proof.
  intros A names g ni fx v ND E Hv. exists (merge g names v).
  assert (Hl : List.length ni = List.length (free_names g names)).
  { rewrite <- (fixed_length g names 0). unfold get_fixed_params in E. rewrite E. reflexivity. }
  assert (K : map fst (merge g names v) = names) by (apply merge_keys; exact Hv).
  assert (ND' : NoDup (map fst (merge g names v))) by (rewrite K; exact ND).
  split; [apply get_params_spec; congruence|]. split; [exact K|]. split.
  - intros k x Hk Hx. apply dict_get_in; [exact ND'|]. apply merge_in; auto.
  - eapply F2_impl; [|apply merge_free; auto]. cbn. intros k x Hin. apply dict_get_in; auto.
Qed.
Example C26_applies :
  get_fixed_params (fun k => if String.eqb k "nu" then Some 4 else None) ["nu"; "mu"; "sigma"]%string = ([1; 2]%nat, [4])
  /\ get_params ["nu"; "mu"; "sigma"]%string 3 [7; 8] [1; 2]%nat [4]
     = Ok [("nu", 4); ("mu", 7); ("sigma", 8)]%string.
Proof. split; reflexivity. Qed.

(** A proposal with too few entries raises; none is silently reused. *)
Theorem C26_short_vector_raises : forall A (names : list string) (getattr : string -> option A) none_idx fixed v,
  NoDup names -> get_fixed_params getattr names = (none_idx, fixed) ->
  (List.length v < List.length none_idx)%nat -> get_params names (List.length names) v none_idx fixed = Err IndexError.
Proof.
  intros A names g ni fx v ND E Hv. unfold get_fixed_params in E. unfold get_params.
  assert (G : forall names0 v0 ni0 fx0 names i pdx fdx acc,
    (forall j, nth_error names j = nth_error names0 (i + j)) ->
    (forall j, (i <= j)%nat -> In j ni0 <-> In j (fst (get_fixed g i names))) ->
    (forall j, nth_error (snd (get_fixed g i names)) j = nth_error fx0 (fdx + j)) ->
    (@List.length A v0 < pdx + List.length (fst (get_fixed g i names)))%nat -> (pdx <= List.length v0)%nat ->
    get_params_loop names0 v0 ni0 fx0 (seq i (List.length names)) pdx fdx acc = Err IndexError).
  { clear. intros names0 v0 ni0 fx0. induction names as [|k r IH]; intros i pdx fdx acc Hn Hni Hfx Hv Hp; [cbn in Hv; lia|].
    cbn [seq List.length get_params_loop]. pose proof (Hn 0%nat) as H0. rewrite Nat.add_0_r in H0. cbn in H0.
    unfold index at 1. rewrite <- H0. cbn [bind]. pose proof (get_fixed_ge g (S i) r) as Hge.
    cbn [get_fixed] in Hni, Hfx, Hv. destruct (get_fixed g (S i) r) as [ni fx] eqn:E. cbn [fst snd] in *.
    destruct (g k) as [x|] eqn:Ek; cbn [fst snd] in *.
    - assert (X : existsb (Nat.eqb i) ni0 = false).
      { apply not_true_is_false. intro X. apply existsb_exists in X. destruct X as (j & Hj & Ej).
        apply Nat.eqb_eq in Ej. subst j. apply Hni in Hj; [|lia]. apply Hge in Hj. lia. }
      rewrite X. pose proof (Hfx 0%nat) as F0. rewrite Nat.add_0_r in F0. cbn in F0.
      unfold index. rewrite <- F0. cbn [bind]. apply IH.
      + intro j. specialize (Hn (S j)). cbn in Hn. rewrite Hn. f_equal. lia.
      + intros j Hj. rewrite E. cbn. apply Hni. lia.
      + intro j. rewrite E. replace (S fdx + j)%nat with (fdx + S j)%nat by lia. apply (Hfx (S j)).
      + rewrite E. exact Hv.
      + exact Hp.
    - assert (X : existsb (Nat.eqb i) ni0 = true).
      { apply existsb_exists. exists i. split; [|apply Nat.eqb_refl]. apply Hni; [lia|]. cbn. auto. }
      rewrite X. cbn [List.length] in Hv. unfold index. destruct (nth_error v0 pdx) eqn:Ev; [|reflexivity]. cbn [bind].
      apply IH.
      + intro j. specialize (Hn (S j)). cbn in Hn. rewrite Hn. f_equal. lia.
      + intros j Hj. rewrite E. cbn [fst]. rewrite Hni by lia. cbn. split; [intros [X1|X1]; [lia|exact X1]|auto].
      + intro j. rewrite E. apply Hfx.
      + rewrite E. cbn [fst]. lia.
      + assert (pdx < List.length v0)%nat by (apply nth_error_Some; congruence). lia. }
  apply G; rewrite ?E; cbn; auto; try tauto; lia.
Qed.
Example C26_short_applies : exists ni fx, get_fixed_params (fun _ : string => @None R) ["mu"; "sigma"]%string = (ni, fx)
  /\ (List.length [1] < List.length ni)%nat.
Proof. eexists. eexists. split; [reflexivity|cbn; lia]. Qed.

(** Every vector an optimiser tries, and the one it returns, is installed with the fixed parameters at their values:
    if the optimisation ends, its last reconfiguration is one of these. *)
Theorem C26_whole_optimisation : forall A S (reparam : list (string * A) -> res S) names getattr none_idx fixed visited x s,
  NoDup names -> get_fixed_params getattr names = (none_idx, fixed) ->
  Forall (fun v => List.length v = List.length (free_names getattr names)) (x :: visited) ->
  install_all reparam names (List.length names) none_idx fixed visited x = Ok s ->
  exists kw, reparam kw = Ok s /\ map fst kw = names /\
    (forall k y, In k names -> getattr k = Some y -> dict_get kw k = Some y) /\
    Forall2 (fun k y => dict_get kw k = Some y) (free_names getattr names) x.
Proof.
  intros A S reparam names g ni fx visited x s ND E HF H. inversion HF as [|? ? Hx Hvs]; subst. clear HF.
  induction Hvs as [|v r Hv Hr IH]; cbn [install_all] in H.
  - destruct (C26_fixed_and_free A names g ni fx x ND E Hx) as (kw & Ek & P). rewrite Ek in H. cbn [bind] in H. eauto.
  - destruct (C26_fixed_and_free A names g ni fx v ND E Hv) as (kw & Ek & P). rewrite Ek in H. cbn [bind] in H.
    destruct (reparam kw); [|discriminate]. cbn [bind] in H. auto.
Qed.
Example C26_whole_applies :
  install_all (fun kw => Ok kw) ["a"; "b"]%string 2 [1]%nat [5] [[1]; [2]] [3] = Ok [("a", 5); ("b", 3)]%string.
Proof. reflexivity. Qed.
