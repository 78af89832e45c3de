(** C86: PyMC variables and Priors given in the place of PreliZ distributions. *)
From Coq Require Import List Bool String Arith ZArith Lia.
From Verif Require Import Base XR BackModel ConvModel.
Import ListNotations.

Section Props.
Variables (Obj Sample PyVar Prior Args : Type).
Variable cls : Obj -> string.
Variable from_pymc : PyVar -> res Obj.
Variable from_prior : Prior -> res Obj.
Variable normal : Obj.
Variable fit : Obj -> Sample -> res (Obj * xr).
Variable argsort : list xr -> list nat.
Variable solve : Args -> Obj -> Obj * option exn.
Variable assign : Obj -> Obj * option exn.
Variable solve2 : Obj -> Obj -> Obj * option exn.
Notation given := (given PyVar Prior).
Notation get_preliz := (get_preliz Obj PyVar Prior from_pymc from_prior).
Notation prepare := (prepare Obj PyVar Prior cls from_pymc from_prior).
Notation mle_any := (mle_any Obj Sample PyVar Prior cls from_pymc from_prior fit argsort).
Notation elicit := (elicit Obj PyVar Prior Args cls from_pymc from_prior normal solve assign).
Notation match_any := (match_any Obj PyVar Prior cls from_pymc from_prior solve2).
Notation fit_loop := (fit_loop Obj Sample fit).

(* ---------------------------------------------------------------- specification *)
(** The distribution an argument means: an object as it is, or what a PyMC variable or a Prior is converted to. *)
Definition meaning (h : heap Obj) (g : given) : res Obj :=
  match g with Mine r => Ok (cell h r) | Pm v => from_pymc v | Pr p => from_prior p end.
(** An argument that is a PreliZ object is one that exists. *)
Definition exists_in (h : heap Obj) (g : given) : Prop := match g with Mine r => (r < next h)%nat | _ => True end.
Definition foreign (g : given) : Prop := match g with Mine _ => False | _ => True end.
(** No PreliZ object is given twice. A PyMC variable may be. *)
Fixpoint own (gs : list given) : list nat := match gs with [] => [] | Mine r :: l => r :: own l | _ :: l => own l end.
(** The objects there were are as they were. *)
Definition untouched (h h' : heap Obj) (but : nat -> Prop) : Prop := forall r, (r < next h)%nat -> ~ but r -> cell h' r = cell h r.
(** The first argument that has no meaning or is Categorical ends the call. *)
Fixpoint accepted (ms : list (res Obj)) : res (list Obj) :=
  match ms with
  | [] => Ok []
  | m :: l => do o <- m; if String.eqb (cls o) "Categorical" then Err ValueError else do os <- accepted l; Ok (o :: os)
  end.
(** Each distribution is fitted by itself. *)
Fixpoint losses (os : list Obj) (s : Sample) : res (list xr) :=
  match os with [] => Ok [] | o :: l => do x <- fit o s; do xs <- losses l s; Ok (snd x :: xs) end.

(* ---------------------------------------------------------------- conversions *)
Lemma get_preliz_spec h g : exists_in h g ->
  match meaning h g with
  | Err e => get_preliz h g = (h, Err e)
  | Ok o => exists h1 r, get_preliz h g = (h1, Ok r) /\ cell h1 r = o /\ (next h <= next h1)%nat /\ (r < next h1)%nat /\
              (forall q, (q < next h)%nat -> cell h1 q = cell h q) /\
              match g with Mine q => r = q /\ h1 = h | _ => r = next h end
  end.
Proof.
  assert (NEW : forall o, exists h1 r, (let '(r, h') := alloc h o in (h', Ok r : res nat)) = (h1, Ok r) /\ cell h1 r = o /\
              (next h <= next h1)%nat /\ (r < next h1)%nat /\ (forall q, (q < next h)%nat -> cell h1 q = cell h q) /\ r = next h).
  { intro o. unfold alloc. do 2 eexists. split; [reflexivity|]. cbn. rewrite Nat.eqb_refl.
    repeat split; try lia. intros q Q. destruct (Nat.eqb_spec q (next h)); [lia|reflexivity]. }
  intro X. destruct g as [q|v|p]; cbn [meaning exists_in] in *.
  - exists h, q. cbn. repeat split; auto.
  - unfold ConvModel.get_preliz. destruct (from_pymc v) as [o|e]; [|reflexivity].
    destruct (NEW o) as (h1 & r & E & R). exists h1, r. split; [exact E|]. exact R.
  - unfold ConvModel.get_preliz. destruct (from_prior p) as [o|e]; [|reflexivity].
    destruct (NEW o) as (h1 & r & E & R). exists h1, r. split; [exact E|]. exact R.
Qed.

(** What mle has in hand before it fits: one object per argument, those of PreliZ as they are, the others new. *)
Definition in_hand (h h' : heap Obj) (g : given) (r : nat) : Prop :=
  match g with Mine q => r = q | _ => (next h <= r < next h')%nat end.
Lemma prepare_spec : forall gs h, Forall (exists_in h) gs ->
  exists h', (next h <= next h')%nat /\ (forall q, (q < next h)%nat -> cell h' q = cell h q) /\
  match accepted (map (meaning h) gs) with
  | Err e => prepare h gs = (h', Err e)
  | Ok os => exists rs, prepare h gs = (h', Ok rs) /\ map (cell h') rs = os /\ Forall2 (in_hand h h') gs rs /\
               (NoDup (own gs) -> NoDup rs)
  end.
Proof.
  induction gs as [|g gs IH]; intros h X.
  - exists h. cbn. repeat split; auto. exists []. repeat split; auto.
  - inversion X as [|? ? Xg Xs]; subst. pose proof (get_preliz_spec h g Xg) as G. cbn [map accepted ConvModel.prepare].
    destruct (meaning h g) as [o|e]; cbn [bind].
    2:{ exists h. rewrite G. auto. }
    destruct G as (h1 & r & E & C & N & R & K & W). rewrite E. unfold valid_distribution. rewrite C.
    destruct (String.eqb (cls o) "Categorical").
    { exists h1. auto. }
    assert (X1 : Forall (exists_in h1) gs).
    { rewrite Forall_forall in *. intros q Q. specialize (Xs q Q). destruct q; cbn in *; try exact I; lia. }
    assert (M1 : map (meaning h1) gs = map (meaning h) gs).
    { apply map_ext_in. intros q Q. rewrite Forall_forall in Xs. specialize (Xs q Q). destruct q; cbn in *; try reflexivity.
      rewrite K by lia. reflexivity. }
    destruct (IH h1 X1) as (h2 & N2 & K2 & D). rewrite M1 in D.
    exists h2. split; [lia|]. split; [intros q Q; rewrite K2 by lia; apply K; exact Q|].
    destruct (accepted (map (meaning h) gs)) as [os|e]; cbn [bind].
    2:{ rewrite D. reflexivity. }
    destruct D as (rs & P & MC & F & ND). rewrite P. exists (r :: rs). split; [reflexivity|].
    assert (F' : Forall2 (in_hand h h2) gs rs).
    { clear - F N. induction F as [|a b la lb H F I]; constructor; [|exact I]. destruct a; cbn in *; [exact H|lia|lia]. }
    split; [cbn; rewrite MC, K2 by exact R; rewrite C; reflexivity|].
    split.
    { constructor; [|exact F']. destruct g; cbn in *; [destruct W; congruence| |]; subst r; lia. }
    intro D. assert (NI : ~ In r rs).
    { intro I. destruct (In_nth_error _ _ I) as [i Ei].
      assert (exists a, nth_error gs i = Some a /\ in_hand h1 h2 a r) as (a & Ea & Ha).
      { clear - F Ei. revert i Ei. induction F as [|a b la lb H F IHF]; intros [|i] Ei; cbn in *; try discriminate.
        - injection Ei as ->. eauto.
        - apply IHF. exact Ei. }
      destruct a as [q|v|p]; cbn [in_hand] in Ha.
      - subst q. destruct g as [q|v|p].
        + destruct W as [-> _]. cbn [own] in D. inversion D; subst. apply H1. clear - Ea. revert i Ea.
          induction gs as [|b l IHl]; intros [|i] Ea; cbn in *; try discriminate.
          * injection Ea as ->. left. reflexivity.
          * destruct b; cbn; [right|..]; apply (IHl i Ea).
        + subst r. rewrite Forall_forall in Xs. pose proof (Xs _ (nth_error_In _ _ Ea)) as Y. cbn in Y. lia.
        + subst r. rewrite Forall_forall in Xs. pose proof (Xs _ (nth_error_In _ _ Ea)) as Y. cbn in Y. lia.
      - lia.
      - lia. }
    constructor; [exact NI|]. apply ND. destruct g; cbn [own] in D; [inversion D; assumption|exact D|exact D].
Qed.

Lemma loop_spec : forall rs h s, NoDup rs ->
  (snd (fit_loop h (map Inst rs) s) = losses (map (cell h) rs) s) /\
  (forall q, ~ In q rs -> cell (fst (fit_loop h (map Inst rs) s)) q = cell h q) /\
  (forall xs, snd (fit_loop h (map Inst rs) s) = Ok xs -> forall q, In q rs ->
     exists x, fit (cell h q) s = Ok (cell (fst (fit_loop h (map Inst rs) s)) q, x)).
Proof.
  induction rs as [|r rs IH]; intros h s D; cbn [map BackModel.fit_loop losses].
  - cbn. repeat split; intros; contradiction.
  - inversion D as [|? ? NI D']; subst.
    destruct (fit (cell h r) s) as [[o x]|e] eqn:E; cbn [bind].
    2:{ cbn. repeat split; intros; try discriminate; reflexivity. }
    destruct (IH (put h r o) s D') as (A & B & C).
    assert (M : map (cell (put h r o)) rs = map (cell h) rs).
    { apply map_ext_in. intros q Q. cbn. destruct (Nat.eqb_spec q r); [subst; contradiction|reflexivity]. }
    rewrite M in A. destruct (BackModel.fit_loop Obj Sample fit (put h r o) (map Inst rs) s) as [h' [l|e]]; cbn [fst snd] in *.
    + rewrite <- A. cbn [bind]. repeat split.
      * intros q Q. cbn in Q. rewrite B by tauto. cbn. destruct (Nat.eqb_spec q r); [subst; tauto|reflexivity].
      * intros xs _ q [<-|Q].
        -- exists x. rewrite B by exact NI. cbn. rewrite Nat.eqb_refl. exact E.
        -- destruct (C l eq_refl q Q) as [y Y]. exists y. rewrite <- Y. cbn.
           destruct (Nat.eqb_spec q r); [subst; contradiction|reflexivity].
    + rewrite <- A. cbn [bind]. repeat split.
      * intros q Q. cbn in Q. rewrite B by tauto. cbn. destruct (Nat.eqb_spec q r); [subst; tauto|reflexivity].
      * intros; discriminate.
Qed.
Lemma loop_others : forall rs h s q, ~ In q rs -> cell (fst (fit_loop h (map Inst rs) s)) q = cell h q.
Proof.
  induction rs as [|r rs IH]; intros h s q NI; cbn [map BackModel.fit_loop]; [reflexivity|].
  destruct (fit (cell h r) s) as [[o x]|e]; [|reflexivity].
  specialize (IH (put h r o) s q). destruct (BackModel.fit_loop Obj Sample fit (put h r o) (map Inst rs) s) as [h' [l|e]]; cbn [fst] in *;
    (rewrite IH by (cbn in NI; tauto); cbn; destruct (Nat.eqb_spec q r); [subst; cbn in NI; tauto|reflexivity]).
Qed.

(* ---------------------------------------------------------------- theorems *)
(** What mle returns or raises depends only on the distributions meant, not on the library they come from. *)
Theorem C86_mle : forall h gs s, Forall (exists_in h) gs -> NoDup (own gs) ->
  snd (mle_any h gs s) = do os <- accepted (map (meaning h) gs); do xs <- losses os s; Ok (argsort xs).
Proof.
  intros h gs s X D. destruct (prepare_spec gs h X) as (h1 & _ & _ & P). unfold ConvModel.mle_any.
  destruct (accepted (map (meaning h) gs)) as [os|e]; cbn [bind].
  2:{ rewrite P. reflexivity. }
  destruct P as (rs & -> & <- & _ & ND). destruct (loop_spec rs h1 s (ND D)) as (A & _ & _).
  destruct (BackModel.fit_loop Obj Sample fit h1 (map Inst rs) s) as [h2 [l|e]]; cbn [snd] in *; rewrite <- A; reflexivity.
Qed.

(** After mle every PreliZ object given holds its own fit, and all other objects are as they were. *)
Theorem C86_mle_inplace : forall h gs s h' idx, Forall (exists_in h) gs -> NoDup (own gs) -> mle_any h gs s = (h', Ok idx) ->
  (forall r, In (Mine r) gs -> exists x, fit (cell h r) s = Ok (cell h' r, x)) /\
  untouched h h' (fun r => In (Mine r) gs).
Proof.
  intros h gs s h' idx X D E. destruct (prepare_spec gs h X) as (h1 & N & K & P). unfold ConvModel.mle_any in E.
  destruct (accepted (map (meaning h) gs)) as [os|e].
  2:{ rewrite P in E. discriminate. }
  destruct P as (rs & P & _ & F & ND). rewrite P in E. destruct (loop_spec rs h1 s (ND D)) as (A & B & C).
  destruct (BackModel.fit_loop Obj Sample fit h1 (map Inst rs) s) as [h2 [l|e]]; cbn [fst snd] in *; [|discriminate].
  injection E as -> _. split.
  - intros r I. assert (Ir : In r rs).
    { clear - F I. induction F as [|a b la lb H F IHF]; cbn in *; [contradiction|]. destruct I as [->|I]; [left; cbn in H; congruence|right; auto]. }
    destruct (C l eq_refl r Ir) as [x H]. exists x. rewrite <- H. f_equal. symmetry. apply K.
    rewrite Forall_forall in X. apply (X _ I).
  - intros r R NI. rewrite B; [apply K; exact R|]. intro I. apply NI.
    clear - F I R. induction F as [|a b la lb H F IHF]; cbn in *; [contradiction|]. destruct I as [->|I]; [|right; auto].
    destruct a; cbn in H; [left; congruence|lia|lia].
Qed.

(** Finding: given PyMC variables or Priors only, mle returns their order, and no object the caller has holds the
    parameters that were found, whether the call succeeds or not. *)
Theorem C86_mle_parameters_lost_refuted : forall h gs s, Forall foreign gs -> untouched h (fst (mle_any h gs s)) (fun _ => False).
Proof.
  intros h gs s Fo r R _.
  assert (X : Forall (exists_in h) gs).
  { eapply Forall_impl; [|exact Fo]. intros a Ha. destruct a; [contradiction|exact I|exact I]. }
  destruct (prepare_spec gs h X) as (h1 & N & K & P). unfold ConvModel.mle_any.
  destruct (accepted (map (meaning h) gs)) as [os|e].
  2:{ rewrite P. apply K. exact R. }
  destruct P as (rs & -> & _ & F & _).
  assert (NI : ~ In r rs).
  { intro I. clear - F I R Fo. induction F as [|a b la lb H F IHF]; cbn in *; [contradiction|]. inversion Fo; subst.
    destruct I as [->|I]; [|auto]. destruct a; cbn in *; [contradiction|lia|lia]. }
  pose proof (loop_others rs h1 s r NI) as L.
  destruct (BackModel.fit_loop Obj Sample fit h1 (map Inst rs) s) as [h2 [l|e]]; cbn [fst] in *; rewrite L; apply K; exact R.
Qed.

(** What becomes of a distribution in maxent and quartile. *)
Definition elicited (o : Obj) (fixed : bool) (a : Args) : res Obj :=
  if String.eqb (cls o) "Categorical" then Err ValueError else
  let '(o1, e) := if fixed then assign o else (o, None) in
  match e with Some x => Err x | None => let '(o2, e) := solve a o1 in match e with Some x => Err x | None => Ok o2 end end.
(** A reference that was not there before. *)
Definition fresh (h h' : heap Obj) (r : nat) : Prop := (next h <= r < next h')%nat.

Lemma run_on_cell h r f : cell (fst (run_on Obj h r f)) r = fst (f (cell h r)) /\ snd (run_on Obj h r f) = snd (f (cell h r)) /\
  next (fst (run_on Obj h r f)) = next h /\ forall q, q <> r -> cell (fst (run_on Obj h r f)) q = cell h q.
Proof.
  unfold run_on. destruct (f (cell h r)) as [o e]. cbn. rewrite Nat.eqb_refl. repeat split.
  intros q Q. destruct (Nat.eqb_spec q r); [contradiction|reflexivity].
Qed.

(** maxent and quartile return the given object itself, or a new one for a PyMC variable or a Prior. It holds what is found
    for the distribution meant; no other object changes. An exception is the one the distribution meant gives. *)
Theorem C86_elicit : forall h g fixed a, exists_in h g ->
  untouched h (fst (elicit h (Some g) fixed a)) (fun r => g = Mine r) /\
  match (do o <- meaning h g; elicited o fixed a) with
  | Err e => snd (elicit h (Some g) fixed a) = Err e
  | Ok o' => exists h' r, elicit h (Some g) fixed a = (h', Ok r) /\ cell h' r = o' /\
               match g with Mine q => r = q | _ => fresh h h' r end
  end.
Proof.
  intros h g fixed a X. pose proof (get_preliz_spec h g X) as G. unfold ConvModel.elicit.
  destruct (meaning h g) as [o|e]; cbn [bind].
  2:{ rewrite G. split; [intros r _ _; reflexivity|reflexivity]. }
  destruct G as (h1 & r & -> & C & N & R & K & W). unfold valid_distribution, elicited. rewrite C.
  destruct (String.eqb (cls o) "Categorical").
  { split; [intros q Q _; apply K; exact Q|reflexivity]. }
  assert (U : forall h2, (forall q, q <> r -> cell h2 q = cell h1 q) -> untouched h h2 (fun r => g = Mine r)).
  { intros h2 H q Q NQ. rewrite H; [apply K; exact Q|]. intros ->. destruct g; [destruct W as [-> _]; apply NQ; reflexivity| |]; lia. }
  assert (LAST : forall h2, (forall q, q <> r -> cell h2 q = cell h1 q) -> next h2 = next h1 ->
    untouched h (fst (let '(h3, e) := run_on Obj h2 r (solve a) in (h3, match e with Some x => Err x | None => Ok r end))) (fun r => g = Mine r) /\
    match (let '(o2, e) := solve a (cell h2 r) in match e with Some x => Err x | None => Ok o2 end) with
    | Err e => snd (let '(h3, e) := run_on Obj h2 r (solve a) in (h3, match e with Some x => Err x | None => Ok r end)) = Err e
    | Ok o' => exists h' r0, (let '(h3, e) := run_on Obj h2 r (solve a) in (h3, match e with Some x => Err x | None => Ok r end)) = (h', Ok r0) /\
                 cell h' r0 = o' /\ match g with Mine q => r0 = q | _ => fresh h h' r0 end
    end).
  { intros h2 H H2. destruct (run_on_cell h2 r (solve a)) as (A & B & D & E).
    destruct (run_on Obj h2 r (solve a)) as [h3 e3]. cbn [fst snd] in *. destruct (solve a (cell h2 r)) as [o2 e2]. cbn [fst snd] in *. subst e3.
    split; [apply U; intros q Q; rewrite E by exact Q; apply H; exact Q|].
    destruct e2; [reflexivity|]. exists h3, r. repeat split; auto. destruct g; [apply W|unfold fresh; subst r; lia|unfold fresh; subst r; lia]. }
  destruct fixed.
  - destruct (run_on_cell h1 r assign) as (A & B & D & E). destruct (run_on Obj h1 r assign) as [h2 e2]. cbn [fst snd] in *.
    rewrite C in A, B. destruct (assign o) as [o1 e1]. cbn [fst snd] in *. subst e2. destruct e1.
    + split; [apply U; exact E|reflexivity].
    + specialize (LAST h2 E D). rewrite A in LAST. exact LAST.
  - specialize (LAST h1 (fun _ _ => eq_refl) eq_refl). rewrite C in LAST. exact LAST.
Qed.

(** Without a distribution, a new Normal is used; nothing the caller has changes. *)
Theorem C86_default : forall h a, String.eqb (cls normal) "Categorical" = false ->
  untouched h (fst (elicit h None false a)) (fun _ => False) /\
  match elicited normal false a with
  | Err e => snd (elicit h None false a) = Err e
  | Ok o' => exists h' r, elicit h None false a = (h', Ok r) /\ cell h' r = o' /\ fresh h h' r
  end.
Proof.
  intros h a V. unfold ConvModel.elicit, elicited, alloc. rewrite V. cbv iota.
  match goal with |- context [run_on Obj ?x ?r ?f] => set (h1 := x); destruct (run_on_cell h1 r f) as (A & B & D & E) end.
  assert (C : cell h1 (next h) = normal) by (unfold h1; cbn; rewrite Nat.eqb_refl; reflexivity). rewrite C in A, B.
  destruct (run_on Obj h1 (next h) (solve a)) as [h2 e2]. cbn [fst snd] in *. destruct (solve a normal) as [o2 e]. cbn [fst snd] in *. subst e2.
  split.
  - intros r R _. cbn [fst]. rewrite E by lia. unfold h1. cbn. destruct (Nat.eqb_spec r (next h)); [lia|reflexivity].
  - destruct e; [reflexivity|]. exists h2, (next h). repeat split; auto. rewrite D. unfold h1. cbn. lia.
Qed.

(** Finding: without a distribution, fixed_params ends maxent and quartile with an AttributeError, also for parameters a
    Normal has. *)
Theorem C86_default_fixed_refuted : forall h a, elicit h None true a = (h, Err AttributeError).
Proof. reflexivity. Qed.

(** match_moments and match_quantiles: the source is never changed (unless it is also the target), the target object itself is
    returned, or a new one for a PyMC variable or a Prior; an exception is the one the distributions meant give. *)
Definition matched (a b : Obj) : res Obj :=
  if String.eqb (cls a) "Categorical" then Err ValueError else
  if String.eqb (cls b) "Categorical" then Err ValueError else
  let '(o, e) := solve2 a b in match e with Some x => Err x | None => Ok o end.
Theorem C86_match : forall h source target, exists_in h source -> exists_in h target ->
  untouched h (fst (match_any h source target)) (fun r => target = Mine r) /\
  match (do a <- meaning h source; do b <- meaning h target; matched a b) with
  | Err e => snd (match_any h source target) = Err e
  | Ok o' => exists h' r, match_any h source target = (h', Ok r) /\ cell h' r = o' /\
               match target with Mine q => r = q | _ => fresh h h' r end
  end.
Proof.
  intros h g t X Y. pose proof (get_preliz_spec h g X) as G. unfold ConvModel.match_any.
  destruct (meaning h g) as [a|e]; cbn [bind].
  2:{ rewrite G. split; [intros r _ _; reflexivity|reflexivity]. }
  destruct G as (h1 & r & -> & C & N & R & K & _).
  assert (Y1 : exists_in h1 t) by (destruct t; cbn in *; try exact I; lia).
  assert (M : meaning h1 t = meaning h t) by (destruct t; cbn in *; try reflexivity; rewrite K by exact Y; reflexivity).
  pose proof (get_preliz_spec h1 t Y1) as G. rewrite M in G. destruct (meaning h t) as [b|e]; cbn [bind].
  2:{ rewrite G. split; [intros q Q _; apply K; exact Q|reflexivity]. }
  destruct G as (h2 & q & -> & C2 & N2 & R2 & K2 & W). unfold valid_distribution, matched. rewrite K2, C, C2 by exact R.
  assert (U : forall h3, (forall p, p <> q -> cell h3 p = cell h2 p) -> untouched h h3 (fun r => t = Mine r)).
  { intros h3 H p P NP. rewrite H; [rewrite K2 by lia; apply K; exact P|]. intros ->.
    destruct t; [destruct W as [-> _]; apply NP; reflexivity| |]; lia. }
  destruct (String.eqb (cls a) "Categorical"); [split; [apply U; reflexivity|reflexivity]|].
  destruct (String.eqb (cls b) "Categorical"); [split; [apply U; reflexivity|reflexivity]|].
  destruct (run_on_cell h2 q (solve2 a)) as (A & B & D & E). rewrite C2 in A, B.
  destruct (run_on Obj h2 q (solve2 a)) as [h3 e3]. cbn [fst snd] in *. destruct (solve2 a b) as [o e]. cbn [fst snd] in *. subst e3.
  split; [apply U; exact E|]. destruct e; [reflexivity|]. exists h3, q. repeat split; auto.
  destruct t; [apply W|unfold fresh; subst q; lia|unfold fresh; subst q; lia].
Qed.
End Props.

(* ---------------------------------------------------------------- examples *)
(** Distributions are a class and a number, a sample is a number, the fit keeps the number of the sample and the loss is the distance. *)
Definition toy : Type := (string * Z)%type.
Definition toy_fit (o : toy) (s : Z) : res (toy * xr) := Ok ((fst o, s), Fin (Rdefinitions.IZR (Z.abs (snd o - s)))).
Definition toy_heap : heap toy := mkHeap (fun r => if Nat.eqb r 0 then ("Normal", 3)%Z else ("Gamma", 5)%Z)%string 2.
Definition toy_pymc (v : Z) : res toy := Ok ("Beta"%string, v).
Definition toy_prior (n : string) : res toy := Ok (n, 0%Z).
Definition toy_call := mle_any toy Z Z string fst toy_pymc toy_prior toy_fit (fun l => seq 0 (List.length l)).
(** Two objects and two conversions: the hypotheses of the theorems hold, the objects given are updated and one that was not is kept. *)
Example C86_inhabited :
  Forall (exists_in toy Z string toy_heap) [Mine 1%nat; Pm 4%Z; Pm 4%Z; Pr "Gamma"%string] /\
  NoDup (own Z string [Mine 1%nat; Pm 4%Z; Pm 4%Z; Pr "Gamma"%string]) /\
  snd (toy_call toy_heap [Mine 1%nat; Pm 4%Z; Pm 4%Z; Pr "Gamma"%string] 9%Z) = Ok [0; 1; 2; 3]%nat /\
  cell (fst (toy_call toy_heap [Mine 1%nat; Pm 4%Z; Pm 4%Z; Pr "Gamma"%string] 9%Z)) 1 = ("Gamma"%string, 9%Z) /\
  cell (fst (toy_call toy_heap [Mine 1%nat; Pm 4%Z; Pm 4%Z; Pr "Gamma"%string] 9%Z)) 0 = ("Normal"%string, 3%Z) /\
  snd (toy_call toy_heap [Mine 1%nat; Pr "Categorical"%string] 9%Z) = Err ValueError.
Proof.
  split; [repeat constructor|]. split; [repeat constructor; cbn; intuition|]. repeat split.
Qed.
Definition toy_elicit := elicit toy Z string Z fst toy_pymc toy_prior ("Normal"%string, 0%Z) (fun a o => ((fst o, a), None)) (fun o => (o, None)).
Example C86_elicit_inhabited :
  snd (toy_elicit toy_heap (Some (Mine 1%nat)) true 7%Z) = Ok 1%nat /\
  snd (toy_elicit toy_heap (Some (Pm 4%Z)) false 7%Z) = Ok 2%nat /\
  cell (fst (toy_elicit toy_heap (Some (Pm 4%Z)) false 7%Z)) 2 = ("Beta"%string, 7%Z) /\
  snd (toy_elicit toy_heap None false 7%Z) = Ok 2%nat.
Proof. repeat split. Qed.

Print Assumptions C86_mle.
Print Assumptions C86_mle_inplace.
Print Assumptions C86_mle_parameters_lost_refuted.
Print Assumptions C86_elicit.
Print Assumptions C86_default.
Print Assumptions C86_default_fixed_refuted.
Print Assumptions C86_match.
