(** C59, continued: bounds that are arrays. *)
From Coq Require Import List Bool ZArith String Reals Lia Arith.
From Verif Require Import Base XR FamModel PymcModel PmBoundModel.
Import ListNotations.
Open Scope list_scope.
Open Scope string_scope.

(** An array has as many entries as its shape says. *)
Definition well_formed (a : nd) : Prop := List.length (nd_vals a) = fold_right Nat.mul 1%nat (nd_shape a).
(** The bound given as a number, or as an array of one number whatever its number of dimensions. *)
Definition array_of (dims : nat) (x : xr) : nd := {| nd_shape := repeat 1%nat dims; nd_vals := [x] |}.

(** A bound given as an array of one number, with any number of dimensions, is read as that number: the variable is
    converted as if the numbers themselves had been given. *)
Theorem C59_bound_arrays ptd base lower upper n m :
  let conv := from_pymc ptd in
  well_formed (array_of n lower) /\ well_formed (array_of m upper) /\
  read_censored (conv base) (array_of n lower) (array_of m upper) =
  conv (Node "Censored" [Sub base; Num lower; Num upper]).
Proof.
  assert (W : forall k x, well_formed (array_of k x)).
  { intros k x. unfold well_formed. cbn. induction k as [|k IH]; [reflexivity|]. cbn. lia. }
  split; [apply W|split; [apply W|]]. unfold read_censored, read_bound. cbn. unfold or_default. reflexivity.
Qed.
(** The same for a truncated variable: every base except Normal, which PyMC truncates with TruncatedNormal. *)
Theorem C59_truncated_bound_arrays ptd base_name params lower upper n m : base_name <> "Normal"%string ->
  read_truncated ptd base_name params (array_of n lower) (array_of m upper) =
  from_pymc ptd (Node ("Truncated" ++ base_name) ([Skip; Skip] ++ map Num params ++ [Num lower; Num upper])).
Proof.
  intro N. unfold read_truncated, read_bound. cbn [as_scalar array_of nd_vals bind].
  assert (E : from_pymc ptd (Node ("Truncated" ++ base_name) ([Skip; Skip] ++ map Num params ++ [Num lower; Num upper])) =
    match family_of base_name with
    | None => Err AttributeError
    | Some f => do d <- reparametrize ptd f params; Ok (PzTruncated (PzFam f d) (or_default lower NInf) (or_default upper PInf))
    end); [|rewrite E; reflexivity].
  cbn [from_pymc]. change (String.eqb ("Truncated" ++ base_name) "Censored") with false. cbn match.
  assert (T : String.eqb ("Truncated" ++ base_name) "TruncatedNormal" = false).
  { apply String.eqb_neq. intro H. apply N. now injection H. }
  rewrite T. assert (A : after_truncated ("Truncated" ++ base_name) = Some base_name).
  { unfold after_truncated. replace (String.prefix "Truncated" ("Truncated" ++ base_name)) with true by (destruct base_name; reflexivity).
    f_equal. cbn. rewrite Nat.sub_0_r. clear. induction base_name as [|c s IH]; cbn; [reflexivity|now rewrite IH]. }
  rewrite A. cbn [skipn app].
  assert (D : drop_end 2 (map Num params ++ [Num lower; Num upper]) = map Num params).
  { unfold drop_end. rewrite app_length. cbn [List.length]. replace (List.length (map Num params) + 2 - 2)%nat with (List.length (map Num params)) by lia.
    rewrite firstn_app, Nat.sub_diag, firstn_all. cbn. apply app_nil_r. }
  rewrite D. assert (AN : all_numbers (map Num params) = Ok params).
  { clear. induction params as [|x l IH]; cbn; [reflexivity|now rewrite IH]. }
  rewrite AN. unfold from_end, at_. cbn [bind rev]. rewrite !rev_app_distr. cbn. reflexivity.
Qed.
(** A bound that differs from entry to entry is not converted: whatever the variable, ValueError is raised. *)
Theorem C59_bound_arrays_refuted base lower upper : well_formed lower -> well_formed upper ->
  (2 <= fold_right Nat.mul 1 (nd_shape lower) \/ 2 <= fold_right Nat.mul 1 (nd_shape upper))%nat ->
  read_censored base lower upper = Err ValueError /\
  forall ptd name params, read_truncated ptd name params lower upper = Err ValueError.
Proof.
  intros WL WU H. unfold read_censored, read_truncated, read_bound, as_scalar, well_formed in *.
  destruct H as [H|H].
  - rewrite <- WL in H. destruct (nd_vals lower) as [|a [|b l]]; cbn in H; try lia. split; reflexivity.
  - rewrite <- WU in H. destruct (nd_vals upper) as [|a [|b l]]; cbn in H; try lia.
    destruct (nd_vals lower) as [|c [|d l']]; split; reflexivity.
Qed.
Example C59_bound_arrays_applies :
  let lower := {| nd_shape := [2%nat]; nd_vals := [Fin 0; Fin 1] |} in
  well_formed lower /\ (2 <= fold_right Nat.mul 1 (nd_shape lower))%nat.
Proof. cbn. split; [reflexivity|lia]. Qed.
Print Assumptions C59_bound_arrays.
Print Assumptions C59_truncated_bound_arrays.
Print Assumptions C59_bound_arrays_refuted.
