(** C90: the methods of modified distributions on numbers, lists and arrays. *)
From Coq Require Import List Bool ZArith Reals Lra Lia.
From Flocq Require Import Core.
From Verif Require Import Base RLists XR LawModel ModModel MixModel ArrModel.
Import ListNotations.
Open Scope R_scope.

(* ------------------------------------------------------------ specification *)
(** The numbers the caller gave, in order. *)
Definition given (x : arg) : list xr :=
  match x with Num n => [num_val n] | PyList l => map num_val l | Arr a => a_vals a end.
(** The argument is one number, or an array without dimensions. *)
Definition one_number (x : arg) : bool := match x with Num _ => true | PyList _ => false | Arr a => a_0d a end.
Definition is_list (x : arg) : bool := match x with PyList _ => true | _ => false end.
(** All the numbers given are integers (for an array: its type is an integer type). *)
Definition all_ints (x : arg) : bool :=
  match x with
  | Num n => num_int n
  | PyList l => negb (Nat.eqb (length l) 0) && forallb num_int l
  | Arr a => match a_type a with IntT => true | FloatT => false end
  end.
(** The wrapped distribution's methods work entry by entry. *)
Definition pointwise (v : vmethods) (d : methods) : Prop :=
  v_kind v = kind_of d /\
  (forall l, v_cdf v l = map (m_cdf d) l) /\ (forall l, v_ppf v l = map (m_ppf d) l) /\
  (forall l, v_pdf v l = map (m_pdf d) l) /\ (forall l, v_logpdf v l = map (m_logpdf d) l).
(** [r] holds, as floats, the value of [f] at each number given, in order, in the shape of the argument. *)
Definition entry_by_entry (f : xr -> xr) (x : arg) (r : arr) : Prop :=
  a_vals r = map f (given x) /\ a_0d r = one_number x /\ a_type r = FloatT.

(* ------------------------------------------------------------ lemmas *)
Lemma given_vals x : a_vals (asarray x) = given x. Proof. now destruct x. Qed.
Lemma given_0d x : a_0d (asarray x) = one_number x. Proof. now destruct x. Qed.
Lemma given_int x : a_type (asarray x) = if all_ints x then IntT else FloatT.
Proof.
  destruct x as [n|l|a]; cbn; [reflexivity| |now destruct (a_type a)].
  destruct l; [reflexivity|]. cbn [length Nat.eqb negb]. cbn. now destruct (num_int n && forallb num_int l).
Qed.
Lemma vmap2_map {A B C D} (f : B -> C -> D) (g : A -> B) (h : A -> C) l :
  vmap2 f (map g l) (map h l) = map (fun x => f (g x) (h x)) l.
Proof. induction l as [|a l IH]; cbn; [reflexivity|now rewrite IH]. Qed.
Lemma where_map g c h (l : list xr) : where_c (map g l) c (map h l) = map (fun x => if g x : bool then c else h x) l.
Proof. unfold where_c. rewrite vmap2_map. reflexivity. Qed.
Lemma vor_map g h (l : list xr) : vor (map g l) (map h l) = map (fun x => g x || h x) l.
Proof. unfold vor. apply vmap2_map. Qed.
Lemma at1_map f g x : (forall l, f l = map g l) -> at1 f x = g x.
Proof. intro H. unfold at1. now rewrite H. Qed.
Lemma ebe f x vals : vals = map f (given x) -> entry_by_entry f x (like (asarray x) vals).
Proof. intros ->. split; [reflexivity|split; [apply given_0d|reflexivity]]. Qed.

(* ------------------------------------------------------------ theorems *)
(** Truncated: whatever is given, each entry of the result is the value at the corresponding number. *)
Theorem C90_truncated v d lower upper x : pointwise v d ->
  entry_by_entry (t_cdf d lower upper) x (vt_cdf v lower upper x) /\
  entry_by_entry (t_ppf d lower upper) x (vt_ppf v lower upper x) /\
  entry_by_entry (t_logpdf d lower upper) x (vt_logpdf v lower upper x) /\
  entry_by_entry (m_pdf (truncated d lower upper)) x (vt_pdf v lower upper x).
Proof.
  intros (K & C & P & _ & L).
  assert (LP : entry_by_entry (t_logpdf d lower upper) x (vt_logpdf v lower upper x)).
  { apply ebe. rewrite !(at1_map _ _ _ C), L, given_vals, K, map_map, vor_map, where_map. reflexivity. }
  split; [|split; [|split; [exact LP|]]].
  - apply ebe. rewrite !(at1_map _ _ _ C), C, given_vals, K, map_map, !where_map. reflexivity.
  - apply ebe. rewrite !(at1_map _ _ _ C), P, given_vals, K, map_map, vor_map, where_map. reflexivity.
  - destruct LP as (A & B & _). unfold vt_pdf. split; [|split; [exact B|reflexivity]]. cbn [like a_vals]. rewrite A, map_map. reflexivity.
Qed.

(** Censored: likewise. *)
Theorem C90_censored v d lower upper x : pointwise v d ->
  entry_by_entry (c_cdf d lower upper) x (vc_cdf v lower upper x) /\
  entry_by_entry (c_ppf d lower upper) x (vc_ppf v lower upper x) /\
  entry_by_entry (c_logpdf d lower upper) x (vc_logpdf v lower upper x).
Proof.
  intros (K & C & P & _ & L). split; [|split].
  - apply ebe. rewrite C, given_vals, !where_map. reflexivity.
  - apply ebe. rewrite P, given_vals, map_map. reflexivity.
  - apply ebe. rewrite !(at1_map _ _ _ C), L, given_vals, K, vor_map, !where_map. apply map_ext. intro y.
    unfold c_logpdf. destruct (kind_of d); reflexivity.
Qed.

(** Hurdle on a number or an array: each entry of the densities and of the cumulative probabilities is right. *)
Theorem C90_hurdle v d psi x : pointwise v d -> is_list x = false ->
  entry_by_entry (h_pdf d psi) x (vh_pdf v psi x) /\
  (exists r, vh_cdf v psi x = Ok r /\ entry_by_entry (h_cdf d psi) x r) /\
  entry_by_entry (h_logpdf d psi) x (vh_logpdf v psi x).
Proof.
  intros (K & C & P & D & L) N.
  assert (E : eq_zero x = Each (map (fun y => xeqb y (Fin 0)) (given x))) by (destruct x; [reflexivity|discriminate|reflexivity]).
  assert (Z : le_zero x = Ok (Each (map (fun y => xleb y (Fin 0)) (given x)))) by (destruct x; [reflexivity|discriminate|reflexivity]).
  split; [|split].
  - apply ebe. rewrite E, !(at1_map _ _ _ C), D, given_vals, map_map. cbn [where_m]. rewrite where_map. reflexivity.
  - unfold vh_cdf. rewrite Z. cbn [bind]. eexists. split; [reflexivity|]. apply ebe.
    rewrite !(at1_map _ _ _ C), C, given_vals, map_map. cbn [where_m]. rewrite where_map. reflexivity.
  - apply ebe. rewrite E, !(at1_map _ _ _ C), L, given_vals, map_map. cbn [where_m]. rewrite where_map. reflexivity.
Qed.

(** Hurdle on a Python list: the density (and its logarithm) is that of the scaled base everywhere, also at 0, where it
    should be 1 - psi; the cumulative probability raises TypeError. *)
Theorem C90_hurdle_list_refuted v d psi l : pointwise v d ->
  a_vals (vh_pdf v psi (PyList l)) =
    map (fun y => xdiv (xmul psi (m_pdf d y)) (xsub (Fin 1) (m_cdf d (Fin eps)))) (map num_val l) /\
  a_vals (vh_logpdf v psi (PyList l)) =
    map (fun y => xsub (xadd (xlog psi) (m_logpdf d y)) (xlog (xsub (Fin 1) (m_cdf d (Fin eps))))) (map num_val l) /\
  vh_cdf v psi (PyList l) = Err TypeError /\
  (forall p c, psi = Fin p -> p < 1 -> m_cdf d (Fin eps) = Fin c -> c < 1 -> m_pdf d (Fin 0) = Fin 0 -> In (PyInt 0) l ->
     a_vals (vh_pdf v psi (PyList l)) <> map (h_pdf d psi) (map num_val l)).
Proof.
  intros (K & C & P & D & L).
  assert (V : a_vals (vh_pdf v psi (PyList l)) =
    map (fun y => xdiv (xmul psi (m_pdf d y)) (xsub (Fin 1) (m_cdf d (Fin eps)))) (map num_val l)).
  { cbn. rewrite !(at1_map _ _ _ C), D, !map_map. reflexivity. }
  split; [exact V|split; [|split]].
  - cbn. rewrite !(at1_map _ _ _ C), L, !map_map. reflexivity.
  - reflexivity.
  - intros p c -> Q E c1 Z I. rewrite V. intro H. rewrite !map_map in H. clear V.
    induction l as [|a l IH]; [easy|]. cbn [map] in H. injection H as H0 H1. destruct I as [-> | I]; [|now apply IH].
    cbn [num_val] in H0. rewrite Z, E in H0. unfold h_pdf in H0. cbn in H0. unfold Reqb in H0.
    destruct (Req_EM_T (IZR 0) 0) as [_|N]; [|now apply N]. destruct (Req_EM_T (1 + - c) 0); [lra|].
    injection H0 as H0. rewrite Rmult_0_r in H0. unfold Rdiv in H0. rewrite Rmult_0_l in H0. lra.
Qed.

Lemma scatter_select g h k (F : xr -> xr) l :
  scatter (map g l) (map h l) (map F (map k (select (map g l) l))) = map (fun x => if g x : bool then F (k x) else h x) l.
Proof.
  induction l as [|a l IH]; cbn; [reflexivity|]. destruct (g a); cbn; now rewrite IH.
Qed.
(** The quantiles of Hurdle: right, entry by entry, when the argument is not made of integers only. *)
Theorem C90_hurdle_ppf garbage v d psi x : pointwise v d -> all_ints x = false ->
  entry_by_entry (h_ppf d psi) x (vh_ppf garbage v psi x).
Proof.
  intros (K & C & P & _ & _) I. apply ebe. rewrite given_int, I, !(at1_map _ _ _ C), P, given_vals, K.
  rewrite (map_map _ (m_ppf d)), (map_map _ (cast garbage FloatT)). cbn [cast].
  rewrite <- (map_map (fun q => xadd _ _) (m_ppf d)).
  rewrite (scatter_select _ (fun _ => Fin 0) _ (m_ppf d)), vor_map, where_map. reflexivity.
Qed.
(** Quantiles of integers: those between 0 and 1 become integers. A quantile that is not an integer is truncated, and an
    infinite one is replaced by some finite number: [ppf(1)] of a hurdle over an unbounded base is not infinite. *)
Theorem C90_hurdle_ppf_refuted garbage v d psi x : pointwise v d -> all_ints x = true ->
  Forall2 (fun q r =>
      (xltb q (Fin 0) || xltb (Fin 1) q = true /\ r = NaN) \/
      (xltb q (Fin 0) || xltb (Fin 1) q = false /\ exists z, r = Fin (IZR z) /\
        forall y, h_ppf d psi q = Fin y -> Rabs (IZR z - y) < 1))
    (given x) (a_vals (vh_ppf garbage v psi x)).
Proof.
  intros (K & C & P & _ & _) I. unfold vh_ppf. rewrite given_int, I, !(at1_map _ _ _ C), P, given_vals, K. cbn [like a_vals].
  rewrite (map_map _ (cast garbage IntT)).
  rewrite (scatter_select _ (fun _ => Fin 0) _ (fun y => cast garbage IntT (m_ppf d y))), vor_map, where_map.
  rewrite <- (map_id (given x)) at 1. induction (given x) as [|q l IH]; cbn [map]; constructor; [|exact IH].
  unfold h_ppf. destruct (xltb q (Fin 0) || xltb (Fin 1) q) eqn:O; [left; now split|right]. split; [reflexivity|].
  set (y := m_ppf d _). destruct (xleb (xsub (Fin 1) psi) q).
  - fold y. destruct y as [r| | |]; cbn [cast].
    + exists (Ztrunc r). split; [reflexivity|]. intros y' [= <-].
      unfold Ztrunc. destruct (Rlt_bool_spec r 0).
      * pose proof (Zceil_ub r). pose proof (Zceil_lb r). apply Rabs_lt. lra.
      * pose proof (Zfloor_lb r). pose proof (Zfloor_ub r). apply Rabs_lt. lra.
    + eexists. split; [reflexivity|intros y' [=]].
    + eexists. split; [reflexivity|intros y' [=]].
    + eexists. split; [reflexivity|intros y' [=]].
  - exists 0%Z. split; [reflexivity|]. intros y' [= <-]. rewrite Rminus_0_r, Rabs_R0. lra.
Qed.

Lemma columns_map f (rows : list (xr -> xr)) l :
  columns (length l) f (map (fun g => map g l) rows) = map (fun y => f (map (fun g => g y) rows)) l.
Proof.
  unfold columns. apply nth_ext with (d := f (map (fun r : list xr => nth 0 r NaN) [])) (d' := f (map (fun g : xr -> xr => g NaN) [])).
  { now rewrite !map_length, seq_length. }
  intros n H. rewrite map_length, seq_length in H.
  rewrite nth_indep with (d' := f (map (fun r : list xr => nth 0 r NaN) (map (fun g => map g l) rows))) by (rewrite map_length, seq_length; lia).
  rewrite (map_nth (fun i => f (map (fun r => nth i r NaN) (map (fun g => map g l) rows)))), seq_nth by lia. cbn [plus].
  rewrite nth_indep with (d' := f (map (fun g : xr -> xr => g NaN) rows)) by (rewrite map_length; lia).
  rewrite (map_nth (fun y => f (map (fun g => g y) rows))). f_equal. rewrite map_map. apply map_ext. intro g.
  rewrite nth_indep with (d' := g NaN) by (rewrite map_length; lia). apply map_nth.
Qed.
(** Mixtures: each entry of the densities and of the cumulative probabilities is the weighted sum at the number given. *)
Theorem C90_mixture (vs : list vmethods) (m : mixture) ws x :
  Forall2 (fun v c => pointwise v (comp c)) vs (mx_comps m) -> mx_weights m = Some ws ->
  entry_by_entry (fun y => match mix_pdf m y with Ok p => p | Err _ => NaN end) x (vmix v_pdf vs ws x) /\
  entry_by_entry (fun y => match mix_cdf m y with Ok p => p | Err _ => NaN end) x (vmix v_cdf vs ws x) /\
  entry_by_entry (fun y => match mix_logpdf m y with Ok p => p | Err _ => NaN end) x (vmix_logpdf vs ws x).
Proof.
  intros H W. unfold mix_pdf, mix_cdf, mix_logpdf, weighted_sum, zipped. rewrite W. cbn [bind].
  split; [|split]; apply ebe; rewrite given_vals.
  - transitivity (columns (length (given x)) xsum (map (fun g => map g (given x))
      (map (fun cw y => xmul (m_pdf (comp (fst cw)) y) (snd cw)) (combine (mx_comps m) ws)))).
    + f_equal. rewrite map_map. clear W. revert ws. induction H as [|v c vs cs V H IH]; intros [|w ws]; cbn [combine map]; try reflexivity.
      cbn [fst snd]. destruct V as (_ & _ & _ & D & _). now rewrite D, map_map, IH.
    + rewrite columns_map. apply map_ext. intro y. now rewrite map_map.
  - transitivity (columns (length (given x)) xsum (map (fun g => map g (given x))
      (map (fun cw y => xmul (m_cdf (comp (fst cw)) y) (snd cw)) (combine (mx_comps m) ws)))).
    + f_equal. rewrite map_map. clear W. revert ws. induction H as [|v c vs cs V H IH]; intros [|w ws]; cbn [combine map]; try reflexivity.
      cbn [fst snd]. destruct V as (_ & C & _). now rewrite C, map_map, IH.
    + rewrite columns_map. apply map_ext. intro y. now rewrite map_map.
  - transitivity (columns (length (given x)) logsumexp (map (fun g => map g (given x))
      (map (fun cw y => xadd (xlog (snd cw)) (m_logpdf (comp (fst cw)) y)) (combine (mx_comps m) ws)))).
    + f_equal. rewrite map_map. clear W. revert ws. induction H as [|v c vs cs V H IH]; intros [|w ws]; cbn [combine map]; try reflexivity.
      cbn [fst snd]. destruct V as (_ & _ & _ & _ & L). now rewrite L, map_map, IH.
    + rewrite columns_map. apply map_ext. intro y. now rewrite map_map.
Qed.

(** The quantiles of a mixture: when the argument is not made of integers only and the search ends for each entry, each
    entry is the quantile of the number given. One number gives one number; so does an array of one. *)
Theorem C90_mixture_ppf store_inf single x vs : all_ints x = false ->
  map single (given x) = map Some vs ->
  exists r, vfind_ppf store_inf single x = Some (Ok r) /\ a_vals r = vs /\ a_type r = FloatT /\
            (a_0d r = true <-> length (given x) = 1%nat).
Proof.
  intros I H. unfold vfind_ppf. rewrite given_int, I, given_vals.
  assert (F : fill store_inf FloatT single (given x) = Some (Ok vs)).
  { revert vs H. induction (given x) as [|q l IH]; intros [|w vs] H; try discriminate; [reflexivity|].
    cbn [map] in H. injection H as A B. cbn [fill]. rewrite A. cbn [store]. now rewrite (IH _ B). }
  rewrite F. eexists. split; [reflexivity|]. cbn. split; [reflexivity|split; [reflexivity|]].
  rewrite Nat.eqb_eq. assert (L : length (map single (given x)) = length (map Some vs)) by now rewrite H.
  rewrite !map_length in L. now rewrite L.
Qed.
(** If it does not end for one entry, nothing is returned for the others. *)
Theorem C90_mixture_ppf_stuck store_inf single x : all_ints x = false ->
  (exists q, In q (given x) /\ single q = None) -> vfind_ppf store_inf single x = None.
Proof.
  intros I (q & IN & N). unfold vfind_ppf. rewrite given_int, I, given_vals.
  assert (F : fill store_inf FloatT single (given x) = None).
  { induction (given x) as [|p l IH]; [easy|]. cbn [fill]. destruct IN as [-> | IN]; [now rewrite N|].
    destruct (single p); [|reflexivity]. cbn [store]. now rewrite (IH IN). }
  now rewrite F.
Qed.
(** Quantiles of a mixture for integers: a number outside 0 and 1 raises ValueError, where [ppf(2.0)] is nan, and so do all
    the others asked with it; and no entry is ever infinite: [ppf(1)] of a mixture of Normal distributions is not the
    infinity that [ppf(1.0)] is. *)
Theorem C90_mixture_ppf_refuted store_inf brentq plus_one fuel k cdf supp x :
  all_ints x = true ->
  let single := find_ppf brentq plus_one fuel k cdf supp in
  (forall q rest, given x = q :: rest -> xltb q (Fin 0) || xltb (Fin 1) q = true ->
     vfind_ppf store_inf single x = Some (Err ValueError)) /\
  (forall r, vfind_ppf store_inf single x = Some (Ok r) ->
     Forall (fun y => exists z, y = Fin (IZR z)) (a_vals r)).
Proof.
  intros I. cbn zeta. unfold vfind_ppf. rewrite given_int, I, given_vals. split.
  - intros q rest -> O. cbn [fill]. unfold find_ppf. apply orb_true_iff in O.
    destruct (xltb q (Fin 0)); [reflexivity|]. destruct O as [O|O]; [discriminate|]. now rewrite O.
  - intros r H.
    assert (G : forall l vs, fill store_inf IntT (find_ppf brentq plus_one fuel k cdf supp) l = Some (Ok vs) ->
                Forall (fun y => exists z, y = Fin (IZR z)) vs).
    { induction l as [|q l IH]; intros vs E; cbn [fill] in E; [injection E as <-; constructor|].
      destruct (find_ppf _ _ _ _ _ _ q) as [v|]; [|discriminate].
      assert (ST : forall w, store store_inf IntT v = Ok w -> exists z, w = Fin (IZR z)).
      { intros w S. destruct v; cbn [store] in S; [injection S as <-; eauto| | |discriminate];
          destruct (store_inf _); try discriminate; injection S as <-; eauto. }
      destruct (store store_inf IntT v) as [w|]; [|discriminate].
      destruct (fill store_inf IntT _ l) as [[vs'|]|]; try discriminate. injection E as <-. constructor; [now apply ST|now apply IH]. }
    destruct (fill store_inf IntT _ (given x)) as [[l|]|] eqn:E; try discriminate. injection H as <-. cbn [a_vals]. exact (G _ _ E).
Qed.

(** Evaluating does not change a truncated distribution whose bounds are numbers: any number of evaluations gives the
    same value and leaves the bound. *)
Theorem C90_bounds n d lower upper x :
  t_cdf_times n d (Number lower) upper x = (repeat (t_cdf d lower upper x) n, Number lower).
Proof.
  induction n as [|n IH]; [reflexivity|]. cbn [t_cdf_times repeat]. unfold t_cdf_obj, adjust_lower_obj, t_cdf, adjust_lower in *.
  destruct (kind_of d); cbn in *; now rewrite IH.
Qed.
(** If the lower bound of a discrete distribution is given as a numpy array, each evaluation lowers it by one: after [n]
    evaluations of [cdf] the distribution is truncated at [lower - n], and the next value is that of the distribution
    truncated there. *)
Theorem C90_bounds_refuted n d lower upper x : kind_of d = Discrete ->
  snd (t_cdf_times n d (Cell (Fin lower)) upper x) = Cell (Fin (lower - INR n)) /\
  fst (t_cdf_obj d (snd (t_cdf_times n d (Cell (Fin lower)) upper x)) upper x) = t_cdf d (Fin (lower - INR n)) upper x.
Proof.
  intro K.
  assert (S : forall n l, snd (t_cdf_times n d (Cell (Fin l)) upper x) = Cell (Fin (l - INR n))).
  { clear n. induction n as [|n IH]; intro l; [cbn; now rewrite Rminus_0_r|].
    cbn [t_cdf_times]. unfold t_cdf_obj at 1, adjust_lower_obj at 1. rewrite K.
    change (xsub (Fin l) (Fin 1)) with (Fin (l + - 1)). specialize (IH (l + - 1)).
    destruct (t_cdf_times n d (Cell (Fin (l + - 1))) upper x) as [vs b]. cbn [snd] in *. rewrite IH, S_INR. do 2 f_equal. ring. }
  rewrite S. split; [reflexivity|]. unfold t_cdf_obj, adjust_lower_obj, t_cdf, adjust_lower. now rewrite K.
Qed.

(* ------------------------------------------------------------ the hypotheses are met *)
Definition base1 : methods := {|
  kind_of := Continuous;
  m_cdf := fun x => match x with Fin r => Fin (if Rltb r 0 then 0 else r / (1 + r)) | PInf => Fin 1 | NInf => Fin 0 | NaN => NaN end;
  m_ppf := fun q => match q with Fin r => if Reqb r 1 then PInf else Fin (r / (1 - r)) | _ => NaN end;
  m_pdf := fun x => match x with Fin r => Fin (if Rltb r 0 then 0 else / ((1 + r) * (1 + r))) | PInf | NInf => Fin 0 | NaN => NaN end;
  m_logpdf := fun x => match x with Fin r => if Rltb r 0 then NInf else Fin (- 2 * ln (1 + r)) | PInf | NInf => NInf | NaN => NaN end;
  m_supp := (Fin 0, PInf) |}.
Definition vbase1 : vmethods := {|
  v_kind := Continuous; v_cdf := map (m_cdf base1); v_ppf := map (m_ppf base1);
  v_pdf := map (m_pdf base1); v_logpdf := map (m_logpdf base1) |}.
(** The quantiles of 0 and 1 for a hurdle over a distribution on the positive numbers: given as integers, the second is
    some integer; if one of the two is a float, it is infinite. *)
Example C90_applies :
  pointwise vbase1 base1 /\ is_list (Num (PyFloat (Fin (1/2)))) = false /\ is_list (PyList [PyInt 0; PyInt 1]) = true /\
  all_ints (PyList [PyInt 0; PyInt 1]) = true /\ all_ints (PyList [PyInt 0; PyFloat (Fin (1/2))]) = false /\
  (forall g, a_vals (vh_ppf g vbase1 (Fin (1/4)) (PyList [PyInt 0; PyInt 1])) = [Fin 0; Fin (IZR (g PInf))]) /\
  a_vals (vh_ppf (fun _ => 0%Z) vbase1 (Fin (1/4)) (PyList [PyInt 0; PyFloat (Fin 1)])) = [Fin 0; PInf].
Proof.
  assert (E : 0 < eps < 1) by (unfold eps; lra).
  assert (PT : pointwise vbase1 base1) by (repeat split).
  assert (Q0 : xleb (xsub (Fin 1) (Fin (1 / 4))) (Fin 0) = false).
  { unfold xleb. cbn. unfold Rltb, Reqb. destruct (Rlt_dec _ _); [lra|]. destruct (Req_EM_T _ _); [lra|reflexivity]. }
  assert (Q1 : xleb (xsub (Fin 1) (Fin (1 / 4))) (Fin 1) = true).
  { unfold xleb. cbn. unfold Rltb, Reqb. destruct (Rlt_dec _ _); [reflexivity|lra]. }
  assert (L0 : xltb (Fin 0) (Fin 0) || xltb (Fin 1) (Fin 0) = false) by (cbn; unfold Rltb; destruct (Rlt_dec 0 0), (Rlt_dec 1 0); try reflexivity; lra).
  assert (L1 : xltb (Fin 1) (Fin 0) || xltb (Fin 1) (Fin 1) = false) by (cbn; unfold Rltb; destruct (Rlt_dec 1 1), (Rlt_dec 1 0); try reflexivity; lra).
  assert (A : m_ppf base1 (xadd (m_cdf base1 (Fin eps)) (xdiv (xmul (xsub (Fin 1) (xsub (Fin 1) (Fin (1/4)))) (xsub (Fin 1) (m_cdf base1 (Fin eps)))) (Fin (1/4)))) = PInf).
  { cbn. unfold Rltb. destruct (Rlt_dec eps 0); [lra|]. cbn. unfold Reqb. destruct (Req_EM_T (1/4) 0); [lra|]. cbn.
    destruct (Req_EM_T _ 1) as [|N]; [reflexivity|]. exfalso. apply N. field. lra. }
  split; [exact PT|split; [reflexivity|split; [reflexivity|split; [reflexivity|split; [reflexivity|split]]]]].
  - intro g. unfold vh_ppf. cbn [asarray a_vals map num_val forallb num_int andb a_type like vbase1 v_kind v_cdf v_ppf at1 hd].
    cbn [select scatter]. rewrite Q0, Q1. cbn [select scatter map]. rewrite A. cbn [cast vor where_c vmap2 map]. 
    unfold vor, where_c. cbn [vmap2]. rewrite L0, L1. reflexivity.
  - unfold vh_ppf. cbn [asarray a_vals map num_val forallb num_int andb a_type like vbase1 v_kind v_cdf v_ppf at1 hd].
    rewrite Q0, Q1. cbn [select scatter map]. rewrite A. unfold vor, where_c. cbn [cast vmap2 map]. rewrite L0, L1. reflexivity.
Qed.

Print Assumptions C90_truncated.
Print Assumptions C90_censored.
Print Assumptions C90_hurdle.
Print Assumptions C90_hurdle_list_refuted.
Print Assumptions C90_hurdle_ppf.
Print Assumptions C90_hurdle_ppf_refuted.
Print Assumptions C90_mixture.
Print Assumptions C90_mixture_ppf.
Print Assumptions C90_mixture_ppf_stuck.
Print Assumptions C90_mixture_ppf_refuted.
Print Assumptions C90_bounds.
Print Assumptions C90_bounds_refuted.
