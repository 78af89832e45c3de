(** Finite sums of reals over lists: definitions and lemmas shared by the areas. *)
From Coq Require Import List Reals Lra Lia Permutation ZArith.
Import ListNotations.
Open Scope R_scope.

Definition Rsum (l : list R) : R := fold_right Rplus 0 l.
Global Arguments Rsum : simpl never.

Lemma Rsum_nil : Rsum [] = 0. Proof. reflexivity. Qed.
Lemma Rsum_cons a l : Rsum (a :: l) = a + Rsum l. Proof. reflexivity. Qed.

Lemma Rsum_app a b : Rsum (a ++ b) = Rsum a + Rsum b.
Proof. induction a as [|x a IH]; unfold Rsum in *; simpl; [lra|]. rewrite IH; lra. Qed.

Lemma Rsum_perm a b : Permutation a b -> Rsum a = Rsum b.
Proof. induction 1; unfold Rsum in *; simpl in *; lra. Qed.

Lemma Rsum_nonneg l : Forall (fun x => 0 <= x) l -> 0 <= Rsum l.
Proof. induction 1; unfold Rsum in *; simpl; lra. Qed.

Lemma Rsum_map_nonneg {A} (f : A -> R) l : (forall x, In x l -> 0 <= f x) -> 0 <= Rsum (map f l).
Proof.
  intro H. apply Rsum_nonneg. apply Forall_forall. intros y Hy.
  apply in_map_iff in Hy. destruct Hy as [x [<- Hx]]. auto.
Qed.

Lemma Rsum_map_scal {A} k (f : A -> R) l : Rsum (map (fun x => k * f x) l) = k * Rsum (map f l).
Proof. induction l; unfold Rsum in *; simpl; [lra|]. rewrite IHl; lra. Qed.

Lemma Rsum_map_scal_r {A} k (f : A -> R) l : Rsum (map (fun x => f x * k) l) = Rsum (map f l) * k.
Proof. induction l; unfold Rsum in *; simpl; [lra|]. rewrite IHl; lra. Qed.

Lemma Rsum_map_div {A} k (f : A -> R) l : Rsum (map (fun x => f x / k) l) = Rsum (map f l) / k.
Proof. unfold Rdiv. apply Rsum_map_scal_r. Qed.

Lemma Rsum_map_plus {A} (f g : A -> R) l :
  Rsum (map (fun x => f x + g x) l) = Rsum (map f l) + Rsum (map g l).
Proof. induction l; unfold Rsum in *; simpl; [lra|]. rewrite IHl; lra. Qed.

Lemma Rsum_map_minus {A} (f g : A -> R) l :
  Rsum (map (fun x => f x - g x) l) = Rsum (map f l) - Rsum (map g l).
Proof. induction l; unfold Rsum in *; simpl; [lra|]. rewrite IHl; lra. Qed.

Lemma Rsum_map_ext {A} (f g : A -> R) l :
  (forall x, In x l -> f x = g x) -> Rsum (map f l) = Rsum (map g l).
Proof. intro H. f_equal. apply map_ext_in. exact H. Qed.

Lemma Rsum_map_le {A} (f g : A -> R) l :
  (forall x, In x l -> f x <= g x) -> Rsum (map f l) <= Rsum (map g l).
Proof.
  induction l as [|a l IH]; intro H; unfold Rsum in *; simpl; [lra|].
  pose proof (H a (or_introl eq_refl)). 
  assert (forall x, In x l -> f x <= g x) as H' by (intros; apply H; right; auto).
  specialize (IH H'). lra.
Qed.

Lemma Rsum_map_const {A} (c : R) (l : list A) : Rsum (map (fun _ => c) l) = INR (length l) * c.
Proof.
  induction l as [|a l IH]; [simpl; unfold Rsum; simpl; lra|].
  change (Rsum (map (fun _ => c) (a :: l))) with (c + Rsum (map (fun _ => c) l)).
  rewrite IH. change (length (a :: l)) with (S (length l)). rewrite S_INR. lra.
Qed.

Lemma Rsum_map_zero {A} (f : A -> R) l : (forall x, In x l -> f x = 0) -> Rsum (map f l) = 0.
Proof.
  intro H. rewrite (Rsum_map_ext f (fun _ => 0)) by exact H. rewrite Rsum_map_const. lra.
Qed.

Lemma Rsum_IZR l : Rsum (map IZR l) = IZR (fold_right Z.add 0%Z l).
Proof. induction l as [|a l IH]; [reflexivity|]. simpl. rewrite plus_IZR, <- IH. reflexivity. Qed.

(** Exchange of two finite sums. *)
Lemma Rsum_exchange {A B} (f : A -> B -> R) la lb :
  Rsum (map (fun a => Rsum (map (f a) lb)) la) = Rsum (map (fun b => Rsum (map (fun a => f a b) la)) lb).
Proof.
  induction la as [|a la IH]; simpl.
  - symmetry. rewrite Rsum_map_zero; [reflexivity|]. intros; reflexivity.
  - rewrite Rsum_cons, IH. rewrite <- Rsum_map_plus. reflexivity.
Qed.

Lemma Rsum_filter {A} (p : A -> bool) (f : A -> R) l :
  Rsum (map f (filter p l)) = Rsum (map (fun x => if p x then f x else 0) l).
Proof.
  induction l as [|a l IH]; simpl; [reflexivity|].
  destruct (p a); simpl; rewrite !Rsum_cons, IH; lra.
Qed.

Lemma combine_map2 {A B C} (f : A -> B) (g : A -> C) l :
  combine (map f l) (map g l) = map (fun x => (f x, g x)) l.
Proof. induction l; simpl; congruence. Qed.

(** A sum of non-negative terms is 0 only if all terms are. *)
Lemma Rsum_zero_all {A} (f : A -> R) l :
  (forall x, In x l -> 0 <= f x) -> Rsum (map f l) = 0 -> forall x, In x l -> f x = 0.
Proof.
  induction l as [|a l IH]; intros H H0 x Hx; [destruct Hx|].
  simpl in H0. rewrite Rsum_cons in H0.
  assert (0 <= f a) by (apply H; left; auto).
  assert (0 <= Rsum (map f l)) by (apply Rsum_map_nonneg; intros; apply H; right; auto).
  destruct Hx as [<-|Hx]; [lra|]. apply IH; auto; [|lra]. intros; apply H; right; auto.
Qed.

(** A weighted mean lies between bounds of the values. *)
Lemma weighted_mean_bounds {A} (w v : A -> R) lo hi l :
  (forall x, In x l -> 0 <= w x) -> (forall x, In x l -> lo <= v x <= hi) ->
  Rsum (map w l) = 1 ->
  lo <= Rsum (map (fun x => w x * v x) l) <= hi.
Proof.
  intros Hw Hv H1.
  assert (A1 : Rsum (map (fun x => lo * w x) l) <= Rsum (map (fun x => w x * v x) l)).
  { apply Rsum_map_le. intros x Hx. specialize (Hw x Hx). specialize (Hv x Hx).
    rewrite Rmult_comm. apply Rmult_le_compat_l; lra. }
  assert (A2 : Rsum (map (fun x => w x * v x) l) <= Rsum (map (fun x => hi * w x) l)).
  { apply Rsum_map_le. intros x Hx. specialize (Hw x Hx). specialize (Hv x Hx).
    rewrite (Rmult_comm hi). apply Rmult_le_compat_l; lra. }
  rewrite Rsum_map_scal, H1 in A1, A2. lra.
Qed.

Lemma nth_error_combine {A B} (l : list A) (m : list B) i a b :
  nth_error l i = Some a -> nth_error m i = Some b -> nth_error (combine l m) i = Some (a, b).
Proof.
  revert l m; induction i as [|i IH]; intros [|x l] [|y m]; simpl; try discriminate; [congruence|apply IH].
Qed.
