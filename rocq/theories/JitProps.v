(** Property theorems for the compilation caches: C38. *)
From Coq Require Import List Bool String ZArith Arith Lia.
From Verif Require Import Base JitModel.
Import ListNotations.

(* ---------------- specification ---------------- *)
(** A call without any cache: symbolic inputs for exactly these arguments, compile, run. An array fits a symbolic tensor
    when dtype and number of dimensions agree and the dimensions fixed to one are the ones that are one. *)
Definition fits (a : arr) (t : tensor_type) : Prop :=
  dtype a = snd t /\ Forall2 (fun s fixed => fixed = true <-> s = 1%nat) (shape a) (fst t).
Definition uncached {V} (build : list tensor_type -> res (compiled V)) (args : list arr) (r : res V) : Prop :=
  exists ts, Forall2 fits args ts /\ r = (do f <- build ts; f args).
(** The cached value for a key is what compiling for that key gives. *)
Definition faithful {V} (build : list tensor_type -> res (compiled V)) (cache : list (list tensor_type * compiled V)) : Prop :=
  NoDup (map fst cache) /\ Forall (fun kf => build (fst kf) = Ok (snd kf)) cache.

(* ---------------- lemmas ---------------- *)
Lemma bools_eqb_spec a : forall b, bools_eqb a b = true <-> a = b.
Proof.
  induction a as [|x a IH]; intros [|y b]; cbn; split; intro H; try discriminate; try reflexivity.
  - apply andb_true_iff in H. destruct H as [H1 H2]. apply eqb_prop in H1. apply IH in H2. congruence.
  - injection H as -> ->. rewrite eqb_reflx. apply IH. reflexivity.
Qed.
Lemma types_eqb_spec a : forall b, types_eqb a b = true <-> a = b.
Proof.
  induction a as [|x a IH]; intros [|y b]; cbn; split; intro H; try discriminate; try reflexivity.
  - apply andb_true_iff in H. destruct H as [H1 H2]. unfold type_eqb in H1. apply andb_true_iff in H1. destruct H1 as [H0 H1].
    apply bools_eqb_spec in H0. apply String.eqb_eq in H1. apply IH in H2. destruct x, y; cbn in *; congruence.
  - injection H as -> ->. unfold type_eqb. rewrite (proj2 (bools_eqb_spec _ _) eq_refl), String.eqb_refl. apply IH. reflexivity.
Qed.
Lemma nats_eqb_spec a : forall b, nats_eqb a b = true <-> a = b.
Proof.
  induction a as [|x a IH]; intros [|y b]; cbn; split; intro H; try discriminate; try reflexivity.
  - apply andb_true_iff in H. destruct H as [H1 H2]. apply Nat.eqb_eq in H1. apply IH in H2. congruence.
  - injection H as -> ->. rewrite Nat.eqb_refl. apply IH. reflexivity.
Qed.
Lemma rng_key_eqb_spec a b : rng_key_eqb a b = true <-> a = b.
Proof.
  destruct a as [a x], b as [b y]. unfold rng_key_eqb. cbn [fst snd]. rewrite andb_true_iff, types_eqb_spec.
  destruct x as [x|], y as [y|]; rewrite ?nats_eqb_spec; split; intro H; try (destruct H; congruence); try (injection H; intros; subst; auto); try discriminate.
Qed.
Section Dict.
Context {K F : Type} (key_eqb : K -> K -> bool).
Hypothesis key_spec : forall a b, key_eqb a b = true <-> a = b.
Lemma get_in (c : list (K * F)) k f : cache_get key_eqb c k = Some f -> In (k, f) c.
Proof using key_spec.
  induction c as [|[k' f'] c IH]; cbn; [discriminate|]. destruct (key_eqb k k') eqn:E; [|auto].
  apply key_spec in E. intros [= ->]. subst. auto.
Qed.
Lemma set_keys (c : list (K * F)) k f : map fst (cache_set key_eqb c k f) = map fst c \/
  (~ In k (map fst c) /\ map fst (cache_set key_eqb c k f) = (map fst c ++ [k])%list).
Proof using key_spec.
  induction c as [|[k' f'] c IH]; cbn; [right; auto|]. destruct (key_eqb k k') eqn:E.
  - apply key_spec in E. subst. left. reflexivity.
  - destruct IH as [IH|[N IH]]; cbn; rewrite IH; [left; reflexivity|]. right. split; [|reflexivity].
    intros [<-|H]; [|auto]. rewrite (proj2 (key_spec k' k') eq_refl) in E. discriminate.
Qed.
Lemma set_in (c : list (K * F)) k f x : In x (cache_set key_eqb c k f) -> x = (k, f) \/ In x c.
Proof using.
  induction c as [|[k' f'] c IH]; cbn; [intros [<-|[]]; auto|]. destruct (key_eqb k k'); cbn; [intros [<-|H]; auto|].
  intros [<-|H]; [auto|]. destruct (IH H); auto.
Qed.
Lemma set_nodup (c : list (K * F)) k f : NoDup (map fst c) -> NoDup (map fst (cache_set key_eqb c k f)).
Proof using key_spec.
  intro H. destruct (set_keys c k f) as [E|[N E]]; rewrite E; [exact H|].
  apply (NoDup_Add (a := k) (l := map fst c)); [|auto]. rewrite <- (app_nil_r (map fst c)) at 1. apply Add_app.
Qed.
End Dict.

Lemma signature_fits args : Forall2 fits args (signature_of args).
Proof.
  induction args as [|a args IH]; cbn; constructor; [|exact IH]. split; [reflexivity|]. cbn. clear IH.
  induction (shape a) as [|s l IH]; cbn; constructor; [|exact IH]. rewrite Nat.eqb_eq. tauto.
Qed.
Lemma fits_signature args ts : Forall2 fits args ts -> ts = signature_of args.
Proof.
  induction 1 as [|a t args ts [H1 H2] _ IH]; cbn; [reflexivity|]. f_equal; [|exact IH]. destruct t as [p dt]. cbn in *. f_equal; [|auto].
  clear - H2. induction H2 as [|s b l p H _ IH]; cbn; [reflexivity|]. f_equal; [|exact IH].
  destruct (Nat.eqb_spec s 1); destruct b; intuition congruence.
Qed.

(* ---------------- C38 ---------------- *)
Lemma jit_step {V} (build : list tensor_type -> res (compiled V)) cache args : faithful build cache ->
  faithful build (fst (jit build cache args)) /\ snd (jit build cache args) = (do f <- build (signature_of args); f args) /\
  (forall k, In k (map fst (fst (jit build cache args))) <-> In k (map fst cache) \/ (k = signature_of args /\ exists f, build k = Ok f)).
Proof.
  intros [ND HF]. unfold jit. set (sg := signature_of args).
  assert (R : let recompile := match build sg with Err e => (cache, Err e) | Ok f => (cache_set types_eqb cache sg f, f args) end in
    faithful build (fst recompile) /\ snd recompile = (do f <- build sg; f args) /\
    (forall k, In k (map fst (fst recompile)) <-> In k (map fst cache) \/ (k = sg /\ exists f, build k = Ok f))).
  { cbn zeta. destruct (build sg) as [f|e] eqn:E; cbn [fst snd bind].
    - split; [split|split; [reflexivity|]].
      + apply set_nodup; [apply types_eqb_spec|exact ND].
      + apply Forall_forall. intros x Hx. apply set_in in Hx. destruct Hx as [->|Hx]; [exact E|]. rewrite Forall_forall in HF. auto.
      + intro k. destruct (set_keys types_eqb types_eqb_spec cache sg f) as [X|[N X]]; rewrite X.
        * split; [auto|]. intros [H|[-> _]]; [exact H|].
          rewrite <- X. clear. induction cache as [|[k' f'] c IH]; cbn; [auto|]. destruct (types_eqb sg k') eqn:E; cbn; [auto|]. auto.
        * rewrite in_app_iff. cbn. split; [intros [H|[<-|[]]]; eauto|intros [H|[-> _]]; auto].
    - split; [split; auto|]. split; [reflexivity|]. intro k. split; [auto|]. intros [H|[-> [f H]]]; [exact H|congruence]. }
  destruct (cache_get types_eqb cache sg) as [f|] eqn:G; [|exact R].
  apply (get_in types_eqb types_eqb_spec) in G. assert (B : build sg = Ok f) by (rewrite Forall_forall in HF; apply (HF _ G)).
  assert (S : forall r, f args = r -> faithful build (fst (cache, r)) /\ snd (cache, r) = (do f <- build sg; f args) /\
    (forall k, In k (map fst (fst (cache, r))) <-> In k (map fst cache) \/ (k = sg /\ exists f, build k = Ok f))).
  { intros r Hr. cbn [fst snd]. split; [split; auto|]. split; [rewrite B; cbn; auto|]. intro k. split; [auto|]. intros [H|[-> _]]; [exact H|].
    apply in_map_iff. exists (sg, f). auto. }
  destruct (f args) as [v|e] eqn:Ef; [apply S; reflexivity|]. destruct e; try (apply S; reflexivity). exact R.
Qed.

(** Whatever was called before, each call returns what compiling for its own arguments and running would: the cache
    never changes a result. Afterwards it has one entry per argument signature met that compiles, and each is still what
    compiling for that signature gives. *)
Theorem C38_transparent : forall V (build : list tensor_type -> res (compiled V)) calls,
  let '(cache, results) := jit_calls build [] calls in
  Forall2 (uncached build) calls results /\ faithful build cache /\
  (forall k, In k (map fst cache) <-> exists args, In args calls /\ Forall2 fits args k /\ exists f, build k = Ok f).
Proof.
  intros V build calls.
  assert (G : forall calls cache, faithful build cache -> let '(cache', results) := jit_calls build cache calls in
    Forall2 (uncached build) calls results /\ faithful build cache' /\
    (forall k, In k (map fst cache') <-> In k (map fst cache) \/ exists args, In args calls /\ Forall2 fits args k /\ exists f, build k = Ok f)).
  { clear calls. induction calls as [|a calls IH]; intros cache HF; cbn [jit_calls].
    - split; [constructor|]. split; [exact HF|]. intro k. split; [auto|]. intros [H|(? & [] & _)]. exact H.
    - destruct (jit_step build cache a HF) as (F1 & R1 & K1). destruct (jit build cache a) as [c1 x]. cbn [fst snd] in *.
      specialize (IH c1 F1). destruct (jit_calls build c1 calls) as [c2 xs]. destruct IH as (A & F2 & K2).
      split; [|split; [exact F2|]].
      + constructor; [|exact A]. exists (signature_of a). split; [apply signature_fits|exact R1].
      + intro k. rewrite K2, K1. split.
        * intros [[H|[-> H]]|(args & Hi & Hf & Hb)]; [auto| |].
          -- right. exists a. split; [left; reflexivity|]. split; [apply signature_fits|exact H].
          -- right. exists args. split; [right; exact Hi|auto].
        * intros [H|(args & [<-|Hi] & Hf & Hb)]; [auto| |].
          -- left. right. split; [apply fits_signature; exact Hf|exact Hb].
          -- right. exists args. auto. }
  specialize (G calls [] (conj (NoDup_nil _) (Forall_nil _))). destruct (jit_calls build [] calls) as [cache results].
  destruct G as (A & B & C). split; [exact A|]. split; [exact B|]. intro k. rewrite C. cbn. split; [intros [[]|H]; exact H|auto].
Qed.
Definition demo_args (n : nat) : list arr := [mkArr [n] "float64" [3%Z]].
Example C38_applies : exists cache,
  jit_calls (fun ts => Ok (fun args => Ok (List.length ts + List.length args, List.length (content (hd (mkArr [] "" []) args)))%nat)) []
    [demo_args 1; demo_args 2; demo_args 1; demo_args 7] = (cache, [Ok (2, 1); Ok (2, 1); Ok (2, 1); Ok (2, 1)]%nat) /\ List.length cache = 2%nat.
Proof. eexists. split; reflexivity. Qed.

(** The signature has all the compiler is told: arguments fit the same symbolic tensors exactly when their signatures are
    equal, so no two calls that need different functions share an entry. *)
Theorem C38_signature_exact : forall args args', signature_of args = signature_of args' <-> exists ts, Forall2 fits args ts /\ Forall2 fits args' ts.
Proof.
  intros args args'. split.
  - intro E. exists (signature_of args). split; [apply signature_fits|]. rewrite E. apply signature_fits.
  - intros (ts & A & B). apply fits_signature in A, B. congruence.
Qed.
Example C38_signature_applies : signature_of (demo_args 1) <> signature_of (demo_args 2) /\ signature_of (demo_args 2) = signature_of (demo_args 3).
Proof. split; [discriminate|reflexivity]. Qed.

(** The same for functions that draw random numbers, started from the same generator: results and generator states are
    those of compiling every time, provided no compiled function raises KeyError. *)
Definition rng_uncached {V G} (build : list tensor_type -> option nat -> res (rng_compiled V G)) (call : list arr * size_arg) (g : G) : G * res V :=
  let size := match snd call with SizeNone => None | SizeInt n => Some [n] | SizeTuple l => Some l end in
  match build (signature_of (fst call)) (match size with None => None | Some l => Some (List.length l) end) with
  | Err e => (g, Err e)
  | Ok f => f (fst call) size g
  end.
Fixpoint rng_uncached_calls {V G} (build : list tensor_type -> option nat -> res (rng_compiled V G)) (calls : list (list arr * size_arg)) (g : G) : G * list (res V) :=
  match calls with
  | [] => (g, [])
  | c :: r => let '(g, x) := rng_uncached build c g in let '(g, xs) := rng_uncached_calls build r g in (g, x :: xs)
  end.
Definition rng_faithful {V G} (build : list tensor_type -> option nat -> res (rng_compiled V G)) (cache : list (rng_key * rng_compiled V G)) : Prop :=
  Forall (fun kf => build (fst (fst kf)) (match snd (fst kf) with None => None | Some l => Some (List.length l) end) = Ok (snd kf)) cache.
Theorem C38_rng_transparent : forall V G (build : list tensor_type -> option nat -> res (rng_compiled V G)) calls g,
  (forall ts n f args size g, build ts n = Ok f -> snd (f args size g) <> Err KeyError) ->
  let '(cache, g', results) := jit_rng_calls build [] calls g in
  (g', results) = rng_uncached_calls build calls g /\ rng_faithful build cache.
Proof.
  intros V G build calls g HK.
  assert (GG : forall calls cache g, rng_faithful build cache -> let '(cache', g', results) := jit_rng_calls build cache calls g in
    (g', results) = rng_uncached_calls build calls g /\ rng_faithful build cache').
  { clear calls g. induction calls as [|[a s] calls IH]; intros cache g HF; cbn [jit_rng_calls rng_uncached_calls]; [auto|].
    assert (S : exists c1, jit_rng build cache a s g = (c1, fst (rng_uncached build (a, s) g), snd (rng_uncached build (a, s) g)) /\ rng_faithful build c1).
    { unfold jit_rng, rng_uncached. cbn [fst snd].
      change (match s with SizeNone => None | SizeInt n => Some [n] | SizeTuple l => Some l end) with (norm_size s).
      set (sz := norm_size s). set (key := (signature_of a, sz)).
      assert (R : exists c1, match build (signature_of a) (option_map (@List.length nat) sz) with
          | Err e => (cache, g, Err e)
          | Ok f => let '(g, r) := f a sz g in (cache_set rng_key_eqb cache key f, g, r)
          end = (c1, fst (match build (signature_of a) (match sz with None => None | Some l => Some (List.length l) end) with Err e => (g, Err e) | Ok f => f a sz g end),
                     snd (match build (signature_of a) (match sz with None => None | Some l => Some (List.length l) end) with Err e => (g, Err e) | Ok f => f a sz g end))
          /\ rng_faithful build c1).
      { change (option_map (@List.length nat) sz) with (match sz with None => None | Some l => Some (List.length l) end).
        destruct (build (signature_of a) _) as [f|e] eqn:E.
        - destruct (f a sz g) as [g' r]. cbn [fst snd]. eexists. split; [reflexivity|]. apply Forall_forall. intros x Hx.
          apply set_in in Hx. destruct Hx as [->|Hx]; [exact E|]. unfold rng_faithful in HF. rewrite Forall_forall in HF. apply HF, Hx.
        - cbn [fst snd]. eexists. split; [reflexivity|exact HF]. }
      destruct (cache_get rng_key_eqb cache key) as [f|] eqn:Eg; [|exact R].
      apply (get_in rng_key_eqb rng_key_eqb_spec) in Eg.
      assert (B : build (signature_of a) (match sz with None => None | Some l => Some (List.length l) end) = Ok f).
      { unfold rng_faithful in HF. rewrite Forall_forall in HF. apply (HF _ Eg). }
      rewrite B. pose proof (HK _ _ _ a sz g B) as NK. destruct (f a sz g) as [g' r]. cbn [fst snd] in *.
      exists cache. split; [|exact HF]. destruct r as [v|e]; [reflexivity|]. destruct e; try reflexivity. congruence. }
    destruct S as (c1 & E & F1). rewrite E. destruct (rng_uncached build (a, s) g) as [g1 x]. cbn [fst snd] in *.
    specialize (IH c1 g1 F1). destruct (jit_rng_calls build c1 calls g1) as [[c2 g2] xs].
    destruct (rng_uncached_calls build calls g1) as [g3 ys]. destruct IH as [IH F2]. injection IH as -> ->. auto. }
  apply GG. constructor.
Qed.
Example C38_rng_applies : exists cache,
  jit_rng_calls (fun ts n => Ok (fun args size (g : nat) => (S g, Ok (g, size)))) [] [(demo_args 1, SizeInt 3); (demo_args 1, SizeTuple [3]); (demo_args 1, SizeNone)] 5%nat
  = (cache, 8%nat, [Ok (5%nat, Some [3%nat]); Ok (6%nat, Some [3%nat]); Ok (7%nat, None)]) /\ List.length cache = 2%nat.
Proof. eexists. split; reflexivity. Qed.
(** A KeyError from inside the compiled function is mistaken for a missing entry: the function runs a second time, and
    the generator advances twice. *)
Theorem C38_key_error_runs_twice_refuted : exists (build : list tensor_type -> option nat -> res (rng_compiled unit nat)) calls,
  snd (fst (jit_rng_calls build [] calls 0%nat)) <> fst (rng_uncached_calls build calls 0%nat).
Proof.
  exists (fun _ _ => Ok (fun _ _ g => (S g, Err KeyError))), [(demo_args 1, SizeNone); (demo_args 1, SizeNone)]. cbn. discriminate.
Qed.

Print Assumptions C38_transparent.
Print Assumptions C38_rng_transparent.
