(** C71: what is printed for a distribution and for the catalog. *)
From Coq Require Import List Bool Ascii String Arith Lia FinFun.
From Verif Require Import Base TextModel TextProps PplModel CatModel CatProps WidgetProps ShowModel.
Import ListNotations.
Open Scope list_scope.

(* ------------------------------------------------------------------ specification *)
(** Characters that structure the text; numbers are written without them. *)
Definition marks : list ascii := list_ascii_of_string ",= []()".
Definition number_text (s : text) : Prop := s <> [] /\ free_of marks s /\ free_of [c_newline] s.

Section Spec.
Context {V : Type}.
Variable fmt : V -> text.
(** name=number, or name=[number, number, ...] *)
Definition shown (nv : text * pval V) : text :=
  match snd nv with
  | PNone => []
  | PNum x => fst nv ++ tx "=" ++ fmt x
  | PArr l => fst nv ++ tx "=[" ++ sep_by (tx ", ") (map fmt l) ++ tx "]"
  end.
(** What can be told from the text about a parameter. *)
Definition visible (v : pval V) : option (text + list text) :=
  match v with PNone => None | PNum x => Some (inl (fmt x)) | PArr l => Some (inr (map fmt l)) end.
(** The parameters with their names. *)
Definition named_params (d : obj V) : list (text * pval V) := combine (o_names d) (o_params d).
Definition given (v : pval V) : Prop := v <> PNone.
End Spec.

(* ------------------------------------------------------------------ strip *)
Section Strip.
Variable p : ascii -> bool.
Definition starts (s : text) : Prop := exists c r, s = c :: r /\ p c = false.
Lemma starts_drop s : starts s -> drop_left p s = s.
Proof using. intros (c & r & -> & H). cbn. now rewrite H. Qed.
Lemma starts_app s t : starts s -> starts (s ++ t).
Proof using. intros (c & r & -> & H). exists c, (r ++ t). auto. Qed.
Definition good (s : text) : Prop := starts s /\ starts (rev s).
Lemma good_app s t : good s -> good t -> good (s ++ t).
Proof using. intros [A _] [_ B]. split; [now apply starts_app|]. rewrite rev_app_distr. now apply starts_app. Qed.
Lemma good_mid s m t : good s -> good t -> good (s ++ m ++ t).
Proof using. intros [A _] [_ B]. split; [now apply starts_app|]. rewrite !rev_app_distr, <- app_assoc. now apply starts_app. Qed.
Lemma free_good s : s <> [] -> Forall (fun c => p c = false) s -> good s.
Proof using.
  intros N F. split.
  - destruct F as [|c s Hc F]; [congruence|]. exists c, s. auto.
  - assert (F' : Forall (fun c => p c = false) (rev s)) by (apply Forall_forall; intros c H; apply in_rev in H; rewrite Forall_forall in F; auto).
    destruct (rev s) as [|c r] eqn:E; [apply (f_equal (@rev ascii)) in E; rewrite rev_involutive in E; cbn in E; congruence|].
    inversion F'. exists c, r. auto.
Qed.
Lemma good_sep sep l : l <> [] -> Forall good l -> good (sep_by sep l).
Proof using.
  induction l as [|x l IH]; intros N F; [congruence|]. inversion F as [|? ? F1 F2]; subst.
  destruct l as [|y l]; [exact F1|]. change (sep_by sep (x :: y :: l)) with (x ++ sep ++ sep_by sep (y :: l)).
  apply good_mid; [exact F1|]. apply IH; [discriminate|exact F2].
Qed.
Lemma drop_all e s : Forall (fun c => p c = true) e -> drop_left p (e ++ s) = drop_left p s.
Proof using. induction 1 as [|c e H _ IH]; cbn; [reflexivity|]. now rewrite H. Qed.
Lemma strip_good s e : good s -> Forall (fun c => p c = true) e -> strip_of p (s ++ e) = s.
Proof using.
  intros [A B] F. unfold strip_of. rewrite (starts_drop (s ++ e)) by now apply starts_app.
  rewrite rev_app_distr, drop_all. { rewrite starts_drop by assumption. apply rev_involutive. }
  apply Forall_forall. intros c H. apply in_rev in H. rewrite Forall_forall in F. auto.
Qed.
End Strip.

Lemma concat_sep sep (l : list text) : l <> [] -> List.concat (map (fun x => x ++ sep) l) = sep_by sep l ++ sep.
Proof.
  induction l as [|x l IH]; intro N; [congruence|]. destruct l as [|y l]; [cbn; now rewrite app_nil_r|].
  cbn [map List.concat]. change (sep_by sep (x :: y :: l)) with (x ++ sep ++ sep_by sep (y :: l)).
  cbn [map List.concat] in IH. rewrite IH by discriminate. now rewrite <- !app_assoc.
Qed.
Lemma strip_list p sep l : Forall (good p) l -> Forall (fun c => p c = true) sep ->
  strip_of p (List.concat (map (fun x => x ++ sep) l)) = sep_by sep l.
Proof.
  intros F S. destruct l as [|x l]; [reflexivity|]. rewrite concat_sep by discriminate.
  apply strip_good; [|exact S]. apply good_sep; [discriminate|exact F].
Qed.

Lemma sep_blank : Forall (fun c => comma_or_blank c = true) (tx ", ").
Proof. repeat constructor. Qed.
Lemma number_good s : number_text s -> good comma_or_blank s.
Proof.
  intros (N & F & _). apply free_good; [exact N|]. eapply Forall_impl; [|exact F]. intros c H. unfold comma_or_blank.
  destruct (Ascii.eqb_spec c ","%char) as [->|]; [exfalso; apply H; cbn; auto|].
  destruct (Ascii.eqb_spec c " "%char) as [->|]; [exfalso; apply H; cbn; auto|]. reflexivity.
Qed.
Lemma word_number w : word w -> number_text w.
Proof.
  intros [N F]. split; [exact N|]. split; (eapply Forall_impl; [|exact F]); intros c H K; cbn in K.
  - repeat (destruct K as [<-|K]; [discriminate H|]). exact K.
  - repeat (destruct K as [<-|K]; [discriminate H|]). exact K.
Qed.

(* ------------------------------------------------------------------ what is printed *)
Section Repr.
Context {V : Type}.
Variable fmt3 : V -> text.
Hypothesis fmt_ok : forall v, number_text (fmt3 v).

Lemma item_shown n v : given v -> item fmt3 n v = Ok (shown fmt3 (n, v) ++ tx ", ").
Proof using fmt_ok.
  intro G. destruct v as [|x|l]; [now contradiction G| |]; cbn [item shown fst snd].
  - now rewrite <- !app_assoc.
  - rewrite <- (map_map fmt3 (fun s => s ++ tx ", ")).
    rewrite strip_list; [now rewrite <- !app_assoc| |apply sep_blank].
    apply Forall_forall. intros s H. apply in_map_iff in H as (x & <- & _). apply number_good, fmt_ok.
Qed.
Lemma items_shown names vals : Forall (fun nv => given (snd nv)) (combine names vals) ->
  items fmt3 names vals = Ok (map (fun nv => shown fmt3 nv ++ tx ", ") (combine names vals)).
Proof using fmt_ok.
  revert vals. induction names as [|n names IH]; intros [|v vals] F; try reflexivity.
  cbn [combine] in F. inversion F as [|? ? F1 F2]; subst. cbn [items combine map]. rewrite item_shown by exact F1.
  cbn [bind]. now rewrite IH.
Qed.
Lemma shown_good nv : word (fst nv) -> given (snd nv) -> good comma_or_blank (shown fmt3 nv).
Proof using fmt_ok.
  destruct nv as [n v]. cbn [fst snd]. intros W G. apply word_number, number_good in W.
  destruct v as [|x|l]; [now contradiction G| |]; cbn [shown fst snd].
  - apply good_mid; [exact W|]. apply number_good, fmt_ok.
  - rewrite (app_assoc (tx "=[")). apply good_mid; [exact W|].
    split; (exists "]"%char, []; split; reflexivity).
Qed.

(** A defined distribution is shown as Name(param=value, param=value, ...), with its parameters in order. *)
Theorem C71_text : forall d, o_frozen d = true -> Forall word (o_names d) ->
  Forall (fun nv => given (snd nv)) (named_params d) ->
  repr fmt3 d = Ok (get_name (o_form d) ++ tx "(" ++ sep_by (tx ", ") (map (shown fmt3) (named_params d)) ++ tx ")").
Proof using fmt_ok.
  intros d F W G. unfold repr, get_description. rewrite F. unfold named_params in *. rewrite items_shown by exact G. cbn [bind].
  rewrite <- (map_map (shown fmt3) (fun s => s ++ tx ", ")). rewrite strip_list; [reflexivity| |apply sep_blank].
  apply Forall_forall. intros s H. apply in_map_iff in H as ([n v] & <- & H). rewrite Forall_forall in G.
  apply shown_good; [|exact (G _ H)]. cbn. apply in_combine_l in H. rewrite Forall_forall in W. auto.
Qed.

(** A modifier is shown with the parameters of its base and then its own: psi, or the bounds, infinite where they were not
    given. While the base lacks a parameter only the name is shown. *)
Theorem C71_modifiers : forall (minus_inf plus_inf : V) base psi lower upper,
  List.length (o_names base) = List.length (o_params base) -> Forall word (o_names base) ->
  (Forall given (o_params base) -> given psi ->
     repr fmt3 (hurdle_obj base psi) = Ok (get_name (Hurdling (o_form base)) ++ tx "(" ++
       sep_by (tx ", ") (map (shown fmt3) (named_params base ++ [(tx "psi", psi)])) ++ tx ")")) /\
  (Forall given (o_params base) ->
     repr fmt3 (truncated_obj minus_inf plus_inf base lower upper) = Ok (get_name (Truncating (o_form base)) ++ tx "(" ++
       sep_by (tx ", ") (map (shown fmt3) (named_params base ++
         [(tx "lower", match lower with PNone => PNum minus_inf | _ => lower end); (tx "upper", match upper with PNone => PNum plus_inf | _ => upper end)])) ++ tx ")")) /\
  (~ Forall given (o_params base) ->
     repr fmt3 (hurdle_obj base psi) = Ok (get_name (Hurdling (o_form base))) /\
     repr fmt3 (truncated_obj minus_inf plus_inf base lower upper) = Ok (get_name (Truncating (o_form base)))).
Proof using fmt_ok.
  intros mi pi base psi lower upper L W.
  assert (FZ : forallb (fun p => negb (is_none p)) (o_params base) = true <-> Forall given (o_params base)).
  { rewrite forallb_forall, Forall_forall. split; intros H x Hx; specialize (H x Hx); destruct x; cbn in *; try reflexivity; try discriminate; congruence. }
  assert (CB : forall extra vals, combine (o_names base ++ extra) (o_params base ++ vals) = (named_params base ++ combine extra vals)%list).
  { intros extra vals. unfold named_params. clear W. revert L. generalize (o_params base). induction (o_names base) as [|n ns IH]; intros [|v vs] L; cbn in *; try discriminate; [reflexivity|]. f_equal. apply IH. injection L as L. exact L. }
  assert (GN : Forall given (o_params base) -> Forall (fun nv : text * pval V => given (snd nv)) (named_params base)).
  { intro G. apply Forall_forall. intros [n v] H. unfold named_params in H. apply in_combine_r in H. rewrite Forall_forall in G. exact (G v H). }
  assert (OW : forall n, In n [tx "psi"; tx "lower"; tx "upper"] -> word n).
  { intros n H. assert (X : (negb (match n with [] => true | _ => false end) && forallb is_word n)%bool = true) by (repeat (destruct H as [<-|H]; [vm_compute; reflexivity|]); destruct H).
    apply andb_true_iff in X as [A B]. split; [destruct n; [discriminate A|discriminate]|]. apply Forall_forall. now apply forallb_forall. }
  split; [|split].
  - intros G P. rewrite C71_text.
    + unfold named_params at 1. cbn [hurdle_obj o_names o_params o_form]. rewrite CB. reflexivity.
    + cbn. apply FZ, G.
    + cbn. apply Forall_app. split; [exact W|]. constructor; [apply OW; cbn; auto|constructor].
    + unfold named_params. cbn [hurdle_obj o_names o_params]. rewrite CB. apply Forall_app. split; [apply GN, G|]. constructor; [exact P|constructor].
  - intro G. rewrite C71_text.
    + unfold named_params at 1. cbn [truncated_obj o_names o_params o_form]. rewrite CB. reflexivity.
    + cbn. apply FZ, G.
    + cbn. apply Forall_app. split; [exact W|]. constructor; [apply OW; cbn; auto|constructor; [apply OW; cbn; auto|constructor]].
    + unfold named_params. cbn [truncated_obj o_names o_params]. rewrite CB. apply Forall_app. split; [apply GN, G|].
      constructor; [cbn; destruct lower; discriminate|]. constructor; [cbn; destruct upper; discriminate|constructor].
  - intro N. assert (F : forallb (fun p => negb (is_none p)) (o_params base) = false) by (destruct (forallb _ (o_params base)) eqn:E; [exfalso; apply N, FZ; reflexivity|reflexivity]).
    split; unfold repr; cbn [hurdle_obj truncated_obj o_frozen o_form]; rewrite F; reflexivity.
Qed.

(** An undefined one is shown by its name; showing fails exactly when a defined one lacks the value of a parameter. *)
Theorem C71_total : forall d,
  (o_frozen d = false -> repr fmt3 d = Ok (get_name (o_form d))) /\
  (repr fmt3 d = Err TypeError <-> o_frozen d = true /\ Exists (fun nv => snd nv = PNone) (named_params d)) /\
  ((exists s, repr fmt3 d = Ok s) \/ repr fmt3 d = Err TypeError).
Proof using.
  intro d. split; [intro F; unfold repr; now rewrite F|].
  assert (K : forall names vals, (items fmt3 names vals = Err TypeError /\ Exists (fun nv => snd nv = PNone) (combine names vals)) \/
                (exists l, items fmt3 names vals = Ok l) /\ ~ Exists (fun nv : text * pval V => snd nv = PNone) (combine names vals)).
  { induction names as [|n names IH]; intros [|v vals]; cbn [items combine];
      try (right; split; [now exists []|intro E; inversion E]; fail).
    destruct v as [|x|l]; cbn [item bind]; [left; split; [reflexivity|now constructor]| |];
      (destruct (IH vals) as [[-> E]|[[r ->] E]]; cbn [bind]; [left; split; [reflexivity|now constructor 2]|];
       right; split; [eauto|intro E'; inversion E'; subst; [discriminate|contradiction]]). }
  unfold repr, get_description, named_params. destruct (o_frozen d).
  - destruct (K (o_names d) (o_params d)) as [[-> E]|[[l ->] E]]; cbn [bind].
    + split; [|auto]. split; auto.
    + split; [|eauto]. split; [discriminate|tauto].
  - split; [|eauto]. split; [discriminate|intros [? _]; discriminate].
Qed.

(* ------------------------------------------------------------------ nothing is hidden *)
(** Two texts that agree up to a mark. *)
Lemma cut_at : forall (cs : list ascii) a b c d r s, free_of cs a -> free_of cs b -> In c cs -> In d cs ->
  a ++ c :: r = b ++ d :: s -> a = b /\ c = d /\ r = s.
Proof using.
  intros cs a b c d r s. revert b. induction a as [|x a IH]; intros [|y b] A B C D E; cbn in E.
  - injection E as <- <-. auto.
  - injection E as -> _. inversion B. contradiction.
  - injection E as -> _. inversion A. contradiction.
  - injection E as <- E. inversion A; inversion B; subst. destruct (IH b) as (-> & -> & ->); auto.
Qed.
Lemma number_marks s : number_text s -> free_of marks s. Proof using. now intros (_ & F & _). Qed.
Lemma numbers_inj : forall l l' : list text, Forall number_text l -> Forall number_text l' ->
  sep_by (tx ", ") l = sep_by (tx ", ") l' -> l = l'.
Proof using.
  assert (E0 : forall x l, number_text x -> sep_by (tx ", ") (x :: l) <> []).
  { intros x l (N & _) E. destruct l; cbn in E; [congruence|]. apply app_eq_nil in E as [E _]. congruence. }
  induction l as [|x l IH]; intros l' F F' E.
  - destruct l' as [|y l']; [reflexivity|]. inversion F'; subst. symmetry in E. exfalso. revert E. now apply E0.
  - destruct l' as [|y l']. { inversion F; subst. exfalso. revert E. now apply E0. }
    inversion F as [|? ? N1 F1]; inversion F' as [|? ? N2 F2]; subst.
    assert (T : forall z m, exists c r, (m = [] -> c = "]"%char /\ r = []) /\ (m <> [] -> c = ","%char /\ r = " "%char :: sep_by (tx ", ") m ++ tx "]") /\
                sep_by (tx ", ") (z :: m) ++ tx "]" = z ++ c :: r).
    { intros z [|y' m]. - exists "]"%char, []. repeat split; try congruence.
      - exists ","%char, (" "%char :: sep_by (tx ", ") (y' :: m) ++ tx "]"). repeat split; try congruence.
        change (sep_by (tx ", ") (z :: y' :: m)) with (z ++ tx ", " ++ sep_by (tx ", ") (y' :: m)). now rewrite <- !app_assoc. }
    destruct (T x l) as (c & r & T1 & T2 & T3). destruct (T y l') as (c' & r' & T1' & T2' & T3').
    assert (E' : x ++ c :: r = y ++ c' :: r') by now rewrite <- T3, <- T3', E.
    assert (In c marks /\ In c' marks) as [C C'].
    { split; [destruct l as [|? ?]; [destruct (T1 eq_refl) as [-> _]|destruct T2 as [-> _]; [discriminate|]]
             |destruct l' as [|? ?]; [destruct (T1' eq_refl) as [-> _]|destruct T2' as [-> _]; [discriminate|]]]; cbn; auto 10. }
    destruct (cut_at marks x y c c' r r') as (<- & <- & <-); auto using number_marks. f_equal.
    destruct l as [|x1 l], l' as [|y1 l']; [reflexivity| | |].
    + destruct (T1 eq_refl) as [-> _]. destruct T2' as [K _]; [discriminate|]. discriminate K.
    + destruct (T1' eq_refl) as [-> _]. destruct T2 as [K _]; [discriminate|]. discriminate K.
    + destruct T2 as [_ ->]; [discriminate|]. destruct T2' as [_ K]; [discriminate|]. injection K as K.
      apply app_inv_tail in K. apply IH; auto.
Qed.

Lemma sep_free cs l : Forall (free_of cs) l -> ~ In ","%char cs -> ~ In " "%char cs -> free_of cs (sep_by (tx ", ") l).
Proof using.
  intros F A B. induction F as [|x l H F IH]; [constructor|]. destruct l as [|y l]; [exact H|].
  change (sep_by (tx ", ") (x :: y :: l)) with (x ++ tx ", " ++ sep_by (tx ", ") (y :: l)). apply free_app; [exact H|].
  constructor; [exact A|]. constructor; [exact B|]. exact IH.
Qed.
Lemma sub_free cs cs' s : (forall c, In c cs' -> In c cs) -> free_of cs s -> free_of cs' s.
Proof using. intros I F. eapply Forall_impl; [|exact F]. cbn. auto. Qed.

Lemma one_inj : forall n n' v v' r r', word n -> word n' -> given v -> given v' ->
  shown fmt3 (n, v) ++ tx ", " ++ r = shown fmt3 (n', v') ++ tx ", " ++ r' -> n = n' /\ visible fmt3 v = visible fmt3 v' /\ r = r'.
Proof using fmt_ok.
  intros n n' v v' r r' W W' G G' E.
  apply word_number, number_marks in W. apply word_number, number_marks in W'.
  assert (Q : forall n v r, given v -> exists t, shown fmt3 (n, v) ++ tx ", " ++ r = n ++ "="%char :: t /\
             match v with PNone => True | PNum x => t = fmt3 x ++ ","%char :: " "%char :: r
             | PArr l => t = "["%char :: sep_by (tx ", ") (map fmt3 l) ++ "]"%char :: tx ", " ++ r end).
  { clear. intros n [|x|l] r G; [now contradiction G| |]; cbn [shown fst snd]; eexists; (split; [rewrite <- !app_assoc; reflexivity|]).
    - reflexivity.
    - cbn [tx list_ascii_of_string app]. rewrite <- ?app_assoc. reflexivity. }
  destruct (Q n v r G) as (t & T1 & T2). destruct (Q n' v' r' G') as (t' & T1' & T2'). rewrite T1, T1' in E. clear T1 T1' Q.
  apply (cut_at marks) in E as (-> & _ & ->); auto; [|cbn; auto|cbn; auto]. split; [reflexivity|].
  assert (M : forall x, In "["%char (fmt3 x) -> False).
  { intros x H. destruct (fmt_ok x) as (_ & F & _). unfold free_of in F. rewrite Forall_forall in F. apply (F _ H). cbn. auto 10. }
  assert (S : forall x s l u, fmt3 x ++ s = "["%char :: sep_by (tx ", ") (map fmt3 l) ++ u -> False).
  { intros x s l u H. destruct (fmt3 x) as [|c w] eqn:Ex; [destruct (fmt_ok x) as (N & _); congruence|].
    cbn in H. injection H as -> _. apply (M x). rewrite Ex. now left. }
  destruct v as [|x|l]; [now contradiction G| |]; (destruct v' as [|x'|l']; [now contradiction G'| |]); cbn [visible] in *.
  - rewrite T2 in T2'. apply (cut_at marks) in T2' as (-> & _ & K); auto using number_marks; [|cbn; auto|cbn; auto].
    injection K as ->. auto.
  - exfalso. rewrite T2 in T2'. now apply S in T2'.
  - exfalso. rewrite T2 in T2'. symmetry in T2'. now apply S in T2'.
  - rewrite T2 in T2'. injection T2' as K.
    assert (B : forall l, free_of ["]"%char] (sep_by (tx ", ") (map fmt3 l))).
    { intro m. apply sep_free; [|cbn; intros [X|[]]; discriminate|cbn; intros [X|[]]; discriminate].
      apply Forall_forall. intros s H. apply in_map_iff in H as (z & <- & _). apply (sub_free marks); [cbn; intuition|]. apply number_marks, fmt_ok. }
    apply (cut_at ["]"%char]) in K as (K1 & _ & K2); auto; [|cbn; auto|cbn; auto].
    apply numbers_inj in K1; [|apply Forall_forall; intros s H; apply in_map_iff in H as (z & <- & _); apply fmt_ok ..].
    cbn in K2. injection K2 as ->. now rewrite K1.
Qed.

Lemma all_inj : forall l l' : list (text * pval V), Forall (fun nv => word (fst nv) /\ given (snd nv)) l -> Forall (fun nv => word (fst nv) /\ given (snd nv)) l' ->
  sep_by (tx ", ") (map (shown fmt3) l) = sep_by (tx ", ") (map (shown fmt3) l') ->
  map (fun nv => (fst nv, visible fmt3 (snd nv))) l = map (fun nv => (fst nv, visible fmt3 (snd nv))) l'.
Proof using fmt_ok.
  intros l l' F F' E.
  assert (C : List.concat (map (fun x => x ++ tx ", ") (map (shown fmt3) l)) = List.concat (map (fun x => x ++ tx ", ") (map (shown fmt3) l'))).
  { assert (N : forall m : list (text * pval V), Forall (fun nv => word (fst nv) /\ given (snd nv)) m -> m <> [] -> sep_by (tx ", ") (map (shown fmt3) m) <> []).
    { intros m Fm Nm K. assert (G : good comma_or_blank (sep_by (tx ", ") (map (shown fmt3) m))).
      { apply good_sep; [destruct m; [congruence|discriminate]|]. apply Forall_forall. intros s H. apply in_map_iff in H as (z & <- & H).
        rewrite Forall_forall in Fm. apply shown_good; apply Fm; exact H. }
      rewrite K in G. destruct G as [(c & r & G & _) _]. discriminate G. }
    destruct l as [|a l], l' as [|b l']; [reflexivity| | |].
    - exfalso. symmetry in E. revert E. apply N; [assumption|discriminate].
    - exfalso. revert E. apply N; [assumption|discriminate].
    - rewrite !concat_sep by discriminate. now rewrite E. }
  clear E. revert l' F' C. induction F as [|[n v] l [W G] F IH]; intros l' F' C.
  - destruct F' as [|[n v] l' [W G] F']; [reflexivity|]. exfalso. cbn [map List.concat] in C. symmetry in C.
    rewrite <- app_assoc in C. apply app_eq_nil in C as [_ C]. discriminate C.
  - destruct F' as [|[n' v'] l' [W' G'] F'].
    + exfalso. cbn [map List.concat] in C. rewrite <- app_assoc in C. apply app_eq_nil in C as [_ C]. discriminate C.
    + cbn [map List.concat fst snd] in *. rewrite <- !app_assoc in C. apply one_inj in C as (-> & K & C); auto. rewrite K. f_equal. apply IH; auto.
Qed.

(** The text determines the name, whether the distribution is defined, and every parameter as far as its digits are shown. *)
Theorem C71_injective : forall d d' s, repr fmt3 d = Ok s -> repr fmt3 d' = Ok s ->
  word (get_name (o_form d)) -> word (get_name (o_form d')) -> Forall word (o_names d) -> Forall word (o_names d') ->
  get_name (o_form d) = get_name (o_form d') /\ o_frozen d = o_frozen d' /\
  (o_frozen d = true -> map (fun nv => (fst nv, visible fmt3 (snd nv))) (named_params d) =
                        map (fun nv => (fst nv, visible fmt3 (snd nv))) (named_params d')).
Proof using fmt_ok.
  assert (P : forall d s, repr fmt3 d = Ok s -> word (get_name (o_form d)) -> Forall word (o_names d) ->
    (o_frozen d = false /\ s = get_name (o_form d)) \/
    (o_frozen d = true /\ Forall (fun nv => word (fst nv) /\ given (snd nv)) (named_params d) /\
     s = get_name (o_form d) ++ tx "(" ++ sep_by (tx ", ") (map (shown fmt3) (named_params d)) ++ tx ")")).
  { intros d s H W Wn. destruct (C71_total d) as (A & B & _). destruct (o_frozen d) eqn:F.
    - right. split; [reflexivity|].
      assert (G : Forall (fun nv => given (snd nv)) (named_params d)).
      { apply Forall_forall. intros nv I K. assert (X : repr fmt3 d = Err TypeError).
        { apply B. split; [reflexivity|]. apply Exists_exists. eauto. } rewrite H in X. discriminate X. }
      split.
      + apply Forall_forall. intros [n v] I. rewrite Forall_forall in G. split; [|exact (G _ I)]. cbn.
        unfold named_params in I. apply in_combine_l in I. rewrite Forall_forall in Wn. auto.
      + rewrite (C71_text d F Wn G) in H. now injection H as <-.
    - left. split; [reflexivity|]. rewrite A in H by reflexivity. now injection H as <-. }
  intros d d' s H H' W W' Wn Wn'.
  assert (O : forall w t, word w -> w = t -> In "("%char t -> False).
  { intros w t [_ F] <- I. rewrite Forall_forall in F. specialize (F _ I). discriminate F. }
  destruct (P d s H W Wn) as [[F ->]|(F & G & ->)]; destruct (P d' _ H' W' Wn') as [[F' E]|(F' & G' & E)].
  - rewrite F, F'. split; [assumption|]. split; [reflexivity|discriminate].
  - exfalso. eapply O; [exact W|exact E|]. apply in_or_app. right. now left.
  - exfalso. symmetry in E. eapply O; [exact W'|exact E|]. apply in_or_app. right. now left.
  - rewrite F, F'. cbn [tx list_ascii_of_string app] in E.
    apply (cut_at marks) in E as (E1 & _ & E2); auto using word_number, number_marks; [|cbn; auto 10|cbn; auto 10].
    apply app_inv_tail in E2. split; [exact E1|]. split; [reflexivity|]. intros _. apply all_inj; auto.
Qed.
End Repr.

(* ------------------------------------------------------------------ the text can be used elsewhere *)
Section Uses.
Context {V W : Type}.
Variable fmt3 : V -> text.
Hypothesis fmt_ok : forall v, number_text (fmt3 v).

Lemma word_strip n : word n -> strip n = n /\ strip (" "%char :: n) = n.
Proof using.
  intros [N F].
  assert (G : forall c, is_word c = true -> is_space c = false).
  { intros [[] [] [] [] [] [] [] []]; vm_compute; congruence. }
  assert (E : forall s, Forall (fun c => is_word c = true) s -> TextModel.lstrip s = s).
  { intros s H. destruct H as [|c s H _]; [reflexivity|]. cbn. now rewrite G. }
  assert (R : Forall (fun c => is_word c = true) (rev n)) by (apply Forall_forall; intros c H; apply in_rev in H; rewrite Forall_forall in F; auto).
  unfold strip. cbn [TextModel.lstrip]. change (is_space " "%char) with true. cbn iota. rewrite (E n F), (E _ R), rev_involutive. auto.
Qed.

(** The parameters of [d] are the numbers [xs], under their names. *)
Definition numbers (d : obj V) (xs : list V) : Prop := o_params d = map PNum xs /\ List.length (o_names d) = List.length xs.

(** What is printed for a distribution with numbers as parameters can be typed into the text box that fixes parameters: it is
    read as just these parameters of just this family, to the digits shown. *)
Theorem C71_pastes : forall (float : text -> option W) (read : V -> W) d xs s,
  (forall x, float (fmt3 x) = Some (read x)) ->
  o_frozen d = true -> word (get_name (o_form d)) -> Forall word (o_names d) -> NoDup (o_names d) -> numbers d xs -> xs <> [] ->
  repr fmt3 d = Ok s ->
  forall name, dict_find (process_extra float s) name =
    if text_eqb name (get_name (o_form d)) then Some (combine (o_names d) (map read xs)) else None.
Proof using fmt_ok.
  intros float read d xs s HF F Wn Wp ND [P L] NE R name.
  assert (G : Forall (fun nv => given (snd nv)) (named_params d)).
  { unfold named_params. apply Forall_forall. intros [n v] I. apply in_combine_r in I. rewrite P in I. apply in_map_iff in I as (x & <- & _). discriminate. }
  rewrite (C71_text fmt3 fmt_ok d F Wp G) in R. injection R as <-. unfold named_params. rewrite P. clear P G F.
  set (kvs := match combine (o_names d) (map fmt3 xs) with [] => [] | nv :: r => nv :: map (fun nv => (" "%char :: fst nv, snd nv)) r end).
  assert (E : sep_by (tx ", ") (map (shown fmt3) (combine (o_names d) (map PNum xs))) = sep_by [c_comma] (map kwarg kvs)).
  { assert (A : forall ns ys, map (shown fmt3) (combine ns (map PNum ys)) = map kwarg (combine ns (map fmt3 ys))).
    { induction ns as [|n ns IH]; intros [|y ys]; try reflexivity. cbn [combine map]. rewrite IH. reflexivity. }
    assert (B : forall (x : text) l, sep_by (tx ", ") (x :: l) = sep_by [c_comma] (x :: map (fun s => " "%char :: s) l)).
    { intros x l. revert x. induction l as [|y l IH]; intro x; [reflexivity|].
      change (sep_by (tx ", ") (x :: y :: l)) with (x ++ ","%char :: " "%char :: sep_by (tx ", ") (y :: l)).
      rewrite IH. cbn [map]. destruct l; reflexivity. }
    rewrite A. unfold kvs. destruct (combine (o_names d) (map fmt3 xs)) as [|nv r]; [reflexivity|]. cbn [map]. rewrite B, !map_map. reflexivity. }
  change [","%char; " "%char] with (tx ", "). rewrite E.
  assert (KV : kvs <> []) by (unfold kvs; destruct xs; [congruence|]; destruct (o_names d); [discriminate L|discriminate]).
  assert (PK : forall cs (n : text), word n -> (forall c, In c cs -> In c marks \/ c = c_newline) -> free_of cs n).
  { intros cs n Wd I. apply word_number in Wd as (_ & M1 & M2). apply Forall_forall. intros c H K. unfold free_of in M1, M2. rewrite Forall_forall in M1, M2.
    destruct (I _ K) as [X|X]; [exact (M1 _ H X)|apply (M2 _ H); left; congruence]. }
  assert (M : forall c, In c [c_comma; c_equal; c_close; c_newline] -> In c marks \/ c = c_newline).
  { intros c [<-|[<-|[<-|[<-|[]]]]]; cbn; auto 12. }
  assert (PV : forall x, plain_value (fmt3 x)).
  { intro x. apply Forall_forall. intros c H K. destruct (fmt_ok x) as (_ & M1 & M2). unfold free_of in M1, M2. rewrite Forall_forall in M1, M2.
    destruct (M _ K) as [X|X]; [exact (M1 _ H X)|apply (M2 _ H); left; congruence]. }
  assert (OK : call_ok (get_name (o_form d), kvs, [])).
  { split; [exact Wn|]. split; [exact KV|]. split; [|constructor].
    assert (A : forall nv, In nv (combine (o_names d) (map fmt3 xs)) -> plain_key (fst nv) /\ plain_value (snd nv)).
    { intros [n v] I. cbn. split.
      - apply PK; [|exact M]. apply in_combine_l in I. rewrite Forall_forall in Wp. auto.
      - apply in_combine_r in I. apply in_map_iff in I as (x & <- & _). apply PV. }
    unfold kvs. destruct (combine (o_names d) (map fmt3 xs)) as [|nv r]; [constructor|]. constructor; [apply A; now left|].
    apply Forall_forall. intros kv I. apply in_map_iff in I as (nv' & <- & I). destruct (A nv' (or_intror I)) as [A1 A2]. cbn. split; [|exact A2].
    constructor; [cbn; intros [X|[X|[X|[X|[]]]]]; discriminate|exact A1]. }
  pose proof (C39_reads_back W float [] [(get_name (o_form d), kvs, [])] ltac:(constructor) ltac:(constructor; [exact OK|constructor]) name) as K.
  cbn [app render] in K. rewrite app_nil_r in K. unfold call_text in K.
  cbn [fold_left fst snd] in K. refine (eq_trans K _). destruct (text_eqb name (get_name (o_form d))); [|reflexivity].
  assert (AF : all_floats float kvs = Some (match combine (o_names d) (map read xs) with [] => [] | nv :: r => nv :: map (fun nv => (" "%char :: fst nv, snd nv)) r end)).
  { unfold kvs. clear -HF. destruct (o_names d) as [|n ns]; [reflexivity|]. destruct xs as [|x xs]; [reflexivity|]. cbn [map combine all_floats].
    rewrite HF. assert (Z : forall ns xs, all_floats float (map (fun nv => (" "%char :: fst nv, snd nv)) (combine ns (map fmt3 xs))) =
       Some (map (fun nv => (" "%char :: fst nv, snd nv)) (combine ns (map read xs)))).
    { clear n ns x xs. induction ns as [|n ns IH]; intros [|x xs]; try reflexivity. cbn [map combine all_floats fst snd]. now rewrite HF, IH. }
    now rewrite Z. }
  rewrite AF. f_equal. unfold settings.
  assert (U : forall ns (ws : list W) acc, Forall word ns -> NoDup (map fst acc ++ ns) -> List.length ns = List.length ws ->
     fold_left (fun acc kv => dict_put acc (strip (fst kv)) (snd kv)) (map (fun nv => (" "%char :: fst nv, snd nv)) (combine ns ws)) acc = acc ++ combine ns ws).
  { clear. induction ns as [|n ns IH]; intros [|w ws] acc F ND L; try discriminate L; [now rewrite app_nil_r|].
    cbn [combine map fold_left fst snd]. inversion F as [|? ? F1 F2]; subst. rewrite (proj2 (word_strip n F1)).
    rewrite put_new.
    - rewrite IH; [now rewrite <- app_assoc|exact F2| |now injection L].
      rewrite map_app. cbn [map fst]. rewrite <- app_assoc. exact ND.
    - apply NoDup_remove_2 in ND. intro X. apply ND, in_or_app. now left. }
  destruct (o_names d) as [|n ns]; [reflexivity|]. destruct xs as [|x xs]; [reflexivity|]. cbn [map combine fold_left fst snd].
  inversion Wp as [|? ? W1 W2]; subst. rewrite (proj1 (word_strip n W1)). cbn [dict_put].
  rewrite U; [reflexivity|exact W2|exact ND|]. rewrite map_length. now injection L.
Qed.

(** The text has a single opening bracket, so the code written for PyMC and Bambi can take the name and the parameters from
    it. *)
Theorem C71_code : forall d s, o_frozen d = true -> word (get_name (o_form d)) -> Forall word (o_names d) -> repr fmt3 d = Ok s ->
  name_params (fun _ : obj V => s) d =
    Ok (get_name (o_form d), sep_by (tx ", ") (map (shown fmt3) (named_params d)) ++ tx ")").
Proof using fmt_ok.
  intros d s F Wn Wp R.
  assert (G : Forall (fun nv => given (snd nv)) (named_params d)).
  { apply Forall_forall. intros nv I K. destruct (C71_total fmt3 d) as (_ & B & _). assert (X : repr fmt3 d = Err TypeError).
    { apply B. split; [exact F|]. apply Exists_exists. eauto. } rewrite R in X. discriminate X. }
  rewrite (C71_text fmt3 fmt_ok d F Wp G) in R. injection R as <-. unfold name_params.
  assert (A : forall s, number_text s -> free_of [c_open] s).
  { intros x H. apply (sub_free marks); [intros c [<-|[]]; cbn; auto 10|now apply number_marks]. }
  assert (B : ~ In c_open (get_name (o_form d))). { apply (free_not_in [c_open]); [apply A, word_number, Wn|now left]. }
  change (tx "(" ++ ?x) with (c_open :: x). rewrite split_app by exact B.
  rewrite split_free; [reflexivity|]. apply (free_not_in [c_open]); [|now left]. apply free_app; [|repeat constructor; intros [X|[]]; discriminate].
  apply sep_free; [|intros [X|[]]; discriminate|intros [X|[]]; discriminate].
  apply Forall_forall. intros t I. apply in_map_iff in I as ([n v] & <- & I).
  assert (Wd : free_of [c_open] n). { apply A, word_number. apply in_combine_l in I. rewrite Forall_forall in Wp. auto. }
  destruct v as [|x|l]; cbn [shown fst snd]; [constructor| |].
  - apply free_app; [exact Wd|]. constructor; [intros [X|[]]; discriminate|]. apply A, fmt_ok.
  - apply free_app; [exact Wd|]. constructor; [intros [X|[]]; discriminate|]. constructor; [intros [X|[]]; discriminate|].
    apply free_app; [|repeat constructor; intros [X|[]]; discriminate].
    apply sep_free; [|intros [X|[]]; discriminate|intros [X|[]]; discriminate].
    apply Forall_forall. intros t I'. apply in_map_iff in I' as (z & <- & _). apply A, fmt_ok.
Qed.
End Uses.

(* ------------------------------------------------------------------ names *)
Lemma seen_spec x l : existsb (text_eqb x) l = true <-> In x l.
Proof.
  rewrite existsb_exists. split.
  - intros (y & I & E). apply text_eqb_spec in E. now subst.
  - intro I. exists x. split; [exact I|]. apply text_eqb_refl.
Qed.
(** The name of a mixture is Mixture followed by the classes of its components, each once, in the order of their first
    appearance: those written before one are those that come before its first appearance. *)
Theorem C71_mixture : forall l, exists u, get_name (Mixing l) = tx "Mixture" ++ List.concat u /\ NoDup u /\
  (forall x, In x u <-> In x (map class_text l)) /\
  (forall a x b, map class_text l = a ++ x :: b -> ~ In x a -> exists u1 u2, u = u1 ++ x :: u2 /\ forall z, In z u1 <-> In z a).
Proof.
  intro l. exists (from_keys [] (map class_text l)). split; [reflexivity|]. set (m := map class_text l). clearbody m. clear l.
  assert (I : forall k seen x, In x (from_keys seen k) <-> In x k /\ ~ In x seen).
  { induction k as [|y k IH]; intros seen x; cbn [from_keys In]; [tauto|].
    destruct (existsb (text_eqb y) seen) eqn:E.
    - rewrite IH. apply seen_spec in E. intuition (subst; tauto).
    - cbn [In]. rewrite IH. cbn [In]. assert (~ In y seen) by (intro K; apply seen_spec in K; congruence).
      destruct (list_eq_dec Ascii.ascii_dec y x) as [->|N]; [intuition|tauto]. }
  split; [|split].
  - assert (N : forall m seen, NoDup (from_keys seen m)).
    { induction m0 as [|y m0 IH]; intro seen; cbn [from_keys]; [constructor|]. destruct (existsb _ _); [apply IH|].
      constructor; [|apply IH]. rewrite I. cbn. tauto. }
    apply N.
  - intro x. rewrite I. cbn. tauto.
  - intros a x b E Nx. subst m.
    assert (P : forall a seen, ~ In x a -> ~ In x seen -> exists u1 u2, from_keys seen (a ++ x :: b) = u1 ++ x :: u2 /\
              forall z, In z u1 <-> In z a /\ ~ In z seen).
    { clear a Nx. induction a as [|y a IH]; intros seen Na Ns; cbn [app from_keys].
      - destruct (existsb (text_eqb x) seen) eqn:E; [apply seen_spec in E; contradiction|]. exists [], (from_keys (x :: seen) b).
        split; [reflexivity|]. cbn. tauto.
      - cbn [In] in Na. destruct (existsb (text_eqb y) seen) eqn:E.
        + apply seen_spec in E. destruct (IH seen) as (u1 & u2 & -> & H); [tauto|tauto|]. exists u1, u2. split; [reflexivity|].
          intro z. rewrite H. cbn [In]. intuition (subst; tauto).
        + assert (Ny : ~ In y seen) by (intro K; apply seen_spec in K; congruence).
          destruct (IH (y :: seen)) as (u1 & u2 & -> & H); [tauto|cbn; intuition|]. exists (y :: u1), u2. split; [reflexivity|].
          intro z. cbn [In]. rewrite H. cbn [In]. destruct (list_eq_dec Ascii.ascii_dec y z) as [->|N]; [intuition|tauto]. }
    destruct (P a [] Nx) as (u1 & u2 & -> & H); [tauto|]. exists u1, u2. split; [reflexivity|]. intro z. rewrite H. cbn. tauto.
Qed.

(** A modifier of an instance of a class. *)
Inductive simple_modifier : form -> Prop :=
| SMt c : simple_modifier (Truncating (Plain c))
| SMc c : simple_modifier (Censoring (Plain c))
| SMh c : simple_modifier (Hurdling (Plain c)).
(** The name of a modified distribution is that of the modifier followed by the class of what is modified, also if that is a modifier. *)
Theorem C71_modifier_name : forall d c,
  (d = Plain c -> get_name d = c /\ get_name (Truncating d) = tx "Truncated" ++ c /\ get_name (Censoring d) = tx "Censored" ++ c /\
     get_name (Hurdling d) = tx "Hurdle" ++ c) /\
  get_name (Truncating (Hurdling d)) = tx "TruncatedHurdle" /\ get_name (Censoring (Hurdling d)) = tx "CensoredHurdle" /\
  get_name (Hurdling (Truncating d)) = tx "HurdleTruncated" /\ get_name (Hurdling (Censoring d)) = tx "HurdleCensored" /\
  get_name (Truncating (Censoring d)) = tx "TruncatedCensored" /\ get_name (Censoring (Truncating d)) = tx "CensoredTruncated".
Proof. intros d c. split; [intros ->; repeat split|repeat split]. Qed.

(** The name of a modified distribution tells the modifier and the family. *)
Theorem C71_modifier : forall f g, simple_modifier f -> simple_modifier g -> get_name f = get_name g -> f = g.
Proof.
  intros f g [a|a|a] [b|b|b] E; cbn [get_name class_text] in E; try (cbn in E; discriminate E);
    apply app_inv_head in E; congruence.
Qed.

(* ------------------------------------------------------------------ HTML *)
Lemma Ok_inj {A} (a b : A) : Ok a = Ok b -> a = b.
Proof. congruence. Qed.
Section Html.
Context {V : Type}.
Variables fmt3 fmt2 : V -> text.
(** The table has the kind, the support, the mean and the deviation of a defined distribution if they can be computed, and the
    parametrizations of its class; each row is in the text, below the same summary as that of the plain text. *)
Theorem C71_html : forall d s, repr_html fmt3 fmt2 d = Ok s ->
  (exists r, repr fmt3 d = Ok r /\
     exists desc post, s = tx "<details><summary><b>" ++ get_name (o_form d) ++ tx "</b>" ++ desc ++ post /\
                       r = get_name (o_form d) ++ desc) /\
  (forall label content, In (label, content) (html_rows fmt2 d) ->
     exists pre post, s = pre ++ tx "<i>" ++ label ++ tx "</i></td><td>" ++ content ++ tx "</td>" ++ post) /\
  In (tx "Kind", o_kind d) (html_rows fmt2 d) /\ In (tx "Support", o_support d) (html_rows fmt2 d) /\
  (forall c, In (tx "Mean", c) (html_rows fmt2 d) <-> o_frozen d = true /\ exists m, o_mean d = Ok m /\ c = fmt2 m) /\
  (forall c, In (tx "Std", c) (html_rows fmt2 d) <-> o_frozen d = true /\ exists m, o_std d = Ok m /\ c = fmt2 m).
Proof using.
  intros d s H. unfold repr_html in H. destruct (get_description fmt3 d) as [desc|] eqn:D; [|discriminate]. cbn [bind] in H.
  assert (R : repr fmt3 d = Ok (if o_frozen d then get_name (o_form d) ++ tx "(" ++ desc ++ tx ")" else get_name (o_form d))).
  { unfold repr. rewrite D. cbn [bind]. now destruct (o_frozen d). }
  assert (S : forall l, html_rows fmt2 d = l -> forall label content, In (label, content) l ->
     exists pre post, List.concat (map row l) = pre ++ tx "<i>" ++ label ++ tx "</i></td><td>" ++ content ++ tx "</td>" ++ post).
  { intros l _. induction l as [|r l IH]; intros label content I; [contradiction|]. destruct I as [->|I].
    - exists (tx "<tr><td style='text-align:right;padding-right:10px'>"), (tx "</tr>" ++ List.concat (map row l)).
      cbn [map List.concat]. unfold row. cbn [fst snd].
      change (tx "<tr><td style='text-align:right;padding-right:10px'><i>") with (tx "<tr><td style='text-align:right;padding-right:10px'>" ++ tx "<i>").
      change (tx "</td></tr>") with (tx "</td>" ++ tx "</tr>"). rewrite <- !app_assoc. reflexivity.
    - destruct (IH label content I) as (pre & post & E). exists (row r ++ pre), post. cbn [map List.concat]. now rewrite E, <- app_assoc. }
  split; [|split; [|split; [|split; [|split]]]].
  - eexists. split; [exact R|]. apply Ok_inj in H; subst s. destruct (o_frozen d).
    + eexists (tx "(" ++ desc ++ tx ")"), _. split; [|reflexivity].
      change (tx "<details><summary><b>") with (tx "<details><summary>" ++ tx "<b>"). change (tx "</b>(") with (tx "</b>" ++ tx "(").
      rewrite <- !app_assoc. reflexivity.
    + eexists [], _. split; [|now rewrite app_nil_r]. change (tx "<details><summary><b>") with (tx "<details><summary>" ++ tx "<b>").
      rewrite <- !app_assoc. reflexivity.
  - intros label content I. destruct (S _ eq_refl label content I) as (pre & post & E). apply Ok_inj in H; subst s. rewrite E.
    match goal with |- exists _ _, ?a ++ ?b ++ ?c ++ ?e ++ ?f ++ ?g = _ => exists (a ++ b ++ c ++ e ++ pre), (post ++ g) end.
    rewrite <- !app_assoc. reflexivity.
  - now left.
  - now right; left.
  - intro c. unfold html_rows. cbn [app In]. rewrite in_app_iff.
    assert (P : ~ In (tx "Mean", c) (match o_parametrizations d with Some (p :: ps) => [(tx "Parametrizations", join (tx ", ") (map (fun q => tx "(" ++ join (tx ", ") q ++ tx ")") (p :: ps)))] | _ => [] end)).
    { destruct (o_parametrizations d) as [[|p ps]|]; cbn [In]; [tauto| |tauto]. intros [X|[]]. discriminate X. }
    split.
    + intros [X|[X|[X|X]]]; [discriminate X|discriminate X| |contradiction]. destruct (o_frozen d); [|contradiction].
      split; [reflexivity|]. apply in_app_iff in X as [X|X].
      * destruct (o_mean d) as [m|]; [|contradiction]. destruct X as [X|[]]. injection X as <-. eauto.
      * destruct (o_std d); [|contradiction]. destruct X as [X|[]]. discriminate X.
    + intros (-> & m & -> & ->). right. right. left. now left.
  - intro c. unfold html_rows. cbn [app In]. rewrite in_app_iff.
    assert (P : ~ In (tx "Std", c) (match o_parametrizations d with Some (p :: ps) => [(tx "Parametrizations", join (tx ", ") (map (fun q => tx "(" ++ join (tx ", ") q ++ tx ")") (p :: ps)))] | _ => [] end)).
    { destruct (o_parametrizations d) as [[|p ps]|]; cbn [In]; [tauto| |tauto]. intros [X|[]]. discriminate X. }
    split.
    + intros [X|[X|[X|X]]]; [discriminate X|discriminate X| |contradiction]. destruct (o_frozen d); [|contradiction].
      split; [reflexivity|]. apply in_app_iff in X as [X|X].
      * destruct (o_mean d); [|contradiction]. destruct X as [X|[]]. discriminate X.
      * destruct (o_std d) as [m|]; [|contradiction]. destruct X as [X|[]]. injection X as <-. eauto.
    + intros (-> & m & -> & ->). right. right. left. apply in_or_app. right. now left.
Qed.

(** A multivariate distribution is shown by its name, in bold, and its rounded parameters in order. *)
Theorem C71_multivariate : forall (fmt_round : list V -> text) cls names vals,
  (forall v, fmt_round v <> [] /\ ~ In ","%char (fmt_round v)) -> Forall word names ->
  mv_repr fmt_round cls true names vals =
    ["027"%char] ++ tx "[1m" ++ cls ++ ["027"%char] ++ tx "[0m(" ++
    sep_by (tx ",") (map (fun nv => fst nv ++ tx "=" ++ fmt_round (snd nv)) (combine names vals)) ++ tx ")" /\
  mv_repr fmt_round cls false names vals = cls.
Proof using.
  intros fr cls names vals R Wd. split; [|reflexivity]. unfold mv_repr.
  change (tx "[0m(") with (tx "[0m" ++ tx "("). rewrite <- !app_assoc. do 6 f_equal.
  assert (E : forall ns vs, mv_items fr ns vs = map (fun x => x ++ tx ",") (map (fun nv => fst nv ++ tx "=" ++ fr (snd nv)) (combine ns vs))).
  { induction ns as [|n ns IH]; intros [|v vs]; try reflexivity. cbn [mv_items combine map fst snd]. rewrite IH, <- !app_assoc. reflexivity. }
  rewrite E, strip_list; [reflexivity| |repeat constructor].
  apply Forall_forall. intros t I. apply in_map_iff in I as ([n v] & <- & I). cbn [fst snd]. apply good_mid.
  - apply in_combine_l in I. rewrite Forall_forall in Wd. specialize (Wd _ I). destruct Wd as [N F]. apply free_good; [exact N|].
    eapply Forall_impl; [|exact F]. intros c H. destruct (Ascii.eqb_spec c ","%char) as [->|]; [discriminate H|reflexivity].
  - destruct (R v) as [N F]. apply free_good; [exact N|]. apply Forall_forall. intros c H. destruct (Ascii.eqb_spec c ","%char) as [->|]; [contradiction|reflexivity].
Qed.
End Html.

(* ------------------------------------------------------------------ the catalog *)
Definition groups : list (string * list cls) :=
  [("Continuous"%string, all_continuous); ("Discrete"%string, all_discrete); ("Multivariate"%string, all_continuous_multivariate);
   ("Modifiers"%string, all_modifiers)].
(** Both forms of the catalog list, group by group, every class by name, with their number; no class is listed twice. *)
Theorem C71_catalog : forall show,
  (forall label l, In (label, l) groups ->
     (exists pre post, catalog_repr show = pre ++ tx label ++ tx " (" ++ show (List.length l) ++ tx "):" ++ ["010"%char] ++ tx "  " ++
                        sep_by (tx ", ") (map (fun c => tx (class_name c)) l) ++ post) /\
     (exists pre post, catalog_html show = pre ++ tx label ++ tx "</b> (" ++ show (List.length l) ++ tx "): " ++
                        sep_by (tx ", ") (map (fun c => tx (class_name c)) l) ++ post)) /\
  NoDup (flat_map (fun g => map (fun c => tx (class_name c)) (snd g)) groups).
Proof.
  intro show.
  assert (J : forall sep l, join sep l = sep_by sep l).
  { intros sep l. induction l as [|x l IH]; [reflexivity|]. destruct l; [reflexivity|]. cbn [join sep_by]. cbn [join] in IH. now rewrite IH. }
  assert (M : forall sep a x y b, exists pre post, join sep (a ++ x :: y :: b) = pre ++ x ++ sep ++ y ++ post).
  { intros sep a x y b. assert (Z : exists post, join sep (x :: y :: b) = x ++ sep ++ y ++ post).
    { cbn [join]. destruct b as [|z b]; [exists []; now rewrite app_nil_r|]. eexists. rewrite <- ?app_assoc. reflexivity. }
    destruct Z as [post Z]. induction a as [|w a [pre [post' IH]]]; [exists [], post; exact Z|].
    exists (w ++ sep ++ pre), post'. cbn [app join]. destruct (a ++ x :: y :: b) as [|v m] eqn:E; [destruct a; discriminate E|].
    rewrite IH, <- !app_assoc. reflexivity. }
  assert (GL : forall a label c l b, exists pre post,
     join newline (a ++ group_lines show (c ++ label) l ++ b) =
     pre ++ label ++ tx " (" ++ show (List.length l) ++ tx "):" ++ newline ++ tx "  " ++ sep_by (tx ", ") (map (fun c => tx (class_name c)) l) ++ post).
  { intros a label c l b. unfold group_lines, names_of. rewrite map_length, J.
    destruct (M newline a ((c ++ label) ++ tx " (" ++ show (List.length l) ++ tx "):")
                (tx "  " ++ sep_by (tx ", ") (map (fun c => tx (class_name c)) l)) b) as (pre & post & E).
    exists (pre ++ c), post. refine (eq_trans E _). rewrite <- !app_assoc. reflexivity. }
  assert (HG : forall label l last, exists pre post, html_group show label l last =
     pre ++ label ++ tx "</b> (" ++ show (List.length l) ++ tx "): " ++ sep_by (tx ", ") (map (fun c => tx (class_name c)) l) ++ post).
  { intros label l last. unfold html_group, names_of. rewrite map_length, J. exists (tx "<b>"), last. reflexivity. }
  assert (SK : forall (t a s : text), (exists pre post, s = pre ++ t ++ post) -> exists pre post, a ++ s = pre ++ t ++ post).
  { intros t a s (pre & post & ->). exists (a ++ pre), post. now rewrite <- !app_assoc. }
  assert (TK : forall (t a s : text), (exists pre post, s = pre ++ t ++ post) -> exists pre post, s ++ a = pre ++ t ++ post).
  { intros t a s (pre & post & ->). exists pre, (post ++ a). now rewrite <- !app_assoc. }
  assert (AS : forall (L s n m p q r : text), (exists pre post, s = pre ++ (L ++ n ++ m ++ p ++ q) ++ post) ->
     exists pre post, s = pre ++ L ++ n ++ m ++ p ++ q ++ post).
  { intros L s n m p q r (pre & post & ->). exists pre, post. now rewrite <- !app_assoc. }
  assert (HG' : forall label l last, exists pre post, html_group show label l last =
     pre ++ (label ++ tx "</b> (" ++ show (List.length l) ++ tx "): " ++ sep_by (tx ", ") (map (fun c => tx (class_name c)) l)) ++ post).
  { intros label l last. destruct (HG label l last) as (pre & post & ->). exists pre, post. now rewrite <- !app_assoc. }
  split.
  - intros label l I. split.
    + unfold catalog_repr. cbn [In groups] in I. destruct I as [I|[I|[I|[I|[]]]]]; injection I as <- <-.
      * exact (GL [_; _] (tx "Continuous") [] _ _).
      * rewrite (app_assoc [_; _]). exact (GL _ (tx "Discrete") newline _ _).
      * rewrite (app_assoc [_; _]), (app_assoc (_ ++ _) (group_lines _ _ all_discrete)). exact (GL _ (tx "Multivariate") newline _ _).
      * rewrite (app_assoc [_; _]), (app_assoc (_ ++ _) (group_lines _ _ all_discrete)), (app_assoc (_ ++ _) (group_lines _ _ all_continuous_multivariate)).
        rewrite <- (app_nil_r (group_lines show (newline ++ tx "Modifiers") all_modifiers)). exact (GL _ (tx "Modifiers") newline _ _).
    + apply (AS _ _ _ _ _ _ []). unfold catalog_html. cbn [In groups] in I. apply SK, SK.
      destruct I as [I|[I|[I|[I|[]]]]]; injection I as <- <-.
      * apply TK, HG'.
      * apply SK, TK, HG'.
      * apply SK, SK, TK, HG'.
      * apply SK, SK, SK, TK, HG'.
  - assert (E : flat_map (fun g : string * list cls => map (fun c => tx (class_name c)) (snd g)) groups = map tx (map class_name all_classes)).
    { unfold groups, all_classes. cbn [flat_map snd]. rewrite app_nil_r, !map_app, !map_map. reflexivity. }
    rewrite E. apply FinFun.Injective_map_NoDup.
    + intros a b H. apply (f_equal string_of_list_ascii) in H. unfold tx in H. now rewrite !string_of_list_ascii_of_string in H.
    + apply FinFun.Injective_map_NoDup; [exact class_name_inj|exact classes_nodup].
Qed.

(* ------------------------------------------------------------------ examples and findings *)
(** Numbers written in unary, used in the examples. *)
Definition ticks (n : nat) : text := repeat "1"%char (S n).
Lemma ticks_ok : forall n, number_text (ticks n).
Proof.
  intro n. split; [discriminate|]. split; apply Forall_forall; intros c H K; apply repeat_spec in H; subst c; cbn in K;
    repeat (destruct K as [K|K]; [discriminate K|]); exact K.
Qed.
Definition normal_obj : obj nat :=
  mkObj (Plain (tx "Normal")) true [tx "mu"; tx "sigma"] [PNum 2%nat; PNum 0%nat] (tx "continuous") (tx "(-inf, inf)") (Ok 2%nat) (Err TypeError) None.
Definition mixture_obj : obj nat :=
  mkObj (Mixing [Plain (tx "Normal"); Plain (tx "Gumbel"); Plain (tx "Normal")]) true
    [tx "mu"; tx "weights"] [PNum 1%nat; PArr [0%nat; 1%nat]] (tx "continuous") (tx "(-inf, inf)") (Ok 2%nat) (Ok 1%nat) None.

Example C71_shown : repr ticks normal_obj = Ok (tx "Normal(mu=111, sigma=1)") /\
  repr ticks mixture_obj = Ok (tx "MixtureNormalGumbel(mu=11, weights=[1, 11])").
Proof. split; vm_compute; reflexivity. Qed.
Lemma word_dec (w : text) : (negb (match w with [] => true | _ => false end) && forallb is_word w)%bool = true -> word w.
Proof.
  intro H. apply andb_true_iff in H as [A B]. split; [destruct w; [discriminate A|discriminate]|]. apply Forall_forall. now apply forallb_forall.
Qed.
Example C71_applies :
  (o_frozen mixture_obj = true /\ Forall word (o_names mixture_obj) /\ Forall (fun nv => given (snd nv)) (named_params mixture_obj) /\
   word (get_name (o_form mixture_obj))) /\
  (forall name, dict_find (process_extra (fun t : text => Some (List.length t)) (tx "Normal(mu=111, sigma=1)")) name =
     if text_eqb name (tx "Normal") then Some [(tx "mu", 3%nat); (tx "sigma", 1%nat)] else None).
Proof.
  split.
  - split; [reflexivity|]. split; [repeat constructor; try discriminate|]. split; [repeat constructor; discriminate|]. apply word_dec. vm_compute. reflexivity.
  - refine (C71_pastes ticks ticks_ok (fun t => Some (List.length t)) S normal_obj [2%nat; 0%nat] (tx "Normal(mu=111, sigma=1)") _ _ _ _ _ _ _ _).
    + intro x. unfold ticks. now rewrite repeat_length.
    + reflexivity.
    + apply word_dec. vm_compute. reflexivity.
    + repeat constructor; discriminate.
    + repeat constructor; cbn; intuition discriminate.
    + split; reflexivity.
    + discriminate.
    + vm_compute. reflexivity.
Qed.
Example C71_modifiers_example : repr ticks (hurdle_obj normal_obj (PNum 3%nat)) = Ok (tx "HurdleNormal(mu=111, sigma=1, psi=1111)") /\
  repr ticks (truncated_obj 0%nat 9%nat normal_obj PNone (PNum 4%nat)) = Ok (tx "TruncatedNormal(mu=111, sigma=1, lower=1, upper=11111)").
Proof. split; vm_compute; reflexivity. Qed.
Example C71_html_example : exists s, repr_html ticks ticks normal_obj = Ok s /\ ~ (exists c, In (tx "Std", c) (html_rows ticks normal_obj)).
Proof.
  eexists. split; [reflexivity|]. intros [c H]. cbn in H. repeat (destruct H as [H|H]; [discriminate H|]). exact H.
Qed.

(** A Hurdle of a defined distribution for which psi is missing counts as defined but cannot be shown: TypeError. *)
Theorem C71_hurdle_refuted : ~ (forall base psi, o_frozen (hurdle_obj base psi) = true -> exists s, repr ticks (hurdle_obj base psi) = Ok s).
Proof. intro H. destruct (H normal_obj PNone eq_refl) as [s E]. vm_compute in E. discriminate E. Qed.

(** The base of a modifier of a modifier is not shown: a truncated Hurdle of a Normal and one of a Moyal with the same
    parameters look the same. *)
Theorem C71_nested_refuted : ~ (forall d d' : obj nat, repr ticks d = repr ticks d' -> o_form d = o_form d').
Proof.
  intro H.
  set (m := mkObj (Plain (tx "Moyal")) true [tx "mu"; tx "sigma"] [PNum 2%nat; PNum 0%nat] (tx "continuous") (tx "(-inf, inf)") (Ok 2%nat) (Ok 1%nat) None).
  specialize (H (truncated_obj 0 9 (hurdle_obj normal_obj (PNum 3%nat)) PNone (PNum 5%nat))
                (truncated_obj 0 9 (hurdle_obj m (PNum 3%nat)) PNone (PNum 5%nat))%nat eq_refl).
  discriminate H.
Qed.

(** A truncated Normal and the family TruncatedNormal have the same name, and so have mixtures that contain them. *)
Theorem C71_truncated_normal_refuted : ~ (forall f g, get_name f = get_name g -> f = g) /\
  ~ (forall l l', get_name (Mixing l) = get_name (Mixing l') -> map class_text l = map class_text l').
Proof.
  split; intro H.
  - specialize (H (Truncating (Plain (tx "Normal"))) (Plain (tx "TruncatedNormal")) eq_refl). discriminate H.
  - specialize (H [Truncating (Plain (tx "Normal")); Plain (tx "Normal")] [Plain (tx "TruncatedNormal")] eq_refl). discriminate H.
Qed.

Print Assumptions C71_text.
Print Assumptions C71_modifiers.
Print Assumptions C71_total.
Print Assumptions C71_injective.
Print Assumptions C71_pastes.
Print Assumptions C71_code.
Print Assumptions C71_mixture.
Print Assumptions C71_modifier_name.
Print Assumptions C71_modifier.
Print Assumptions C71_html.
Print Assumptions C71_multivariate.
Print Assumptions C71_catalog.
Print Assumptions C71_hurdle_refuted.
Print Assumptions C71_nested_refuted.
Print Assumptions C71_truncated_normal_refuted.
