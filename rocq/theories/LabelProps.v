(** C83: what is written beside the plots of a distribution, where they are drawn, and the notice that a notebook is needed. *)
From Coq Require Import List Bool Ascii String Arith Lia.
From Verif Require Import Base TextModel TextProps SourceProofs ShowModel LawModel LabelModel.
Import ListNotations.
Open Scope list_scope.

(* ------------------------------------------------------------------ specification *)
Section Spec.
Context {V F : Type}.
Variable fmt3 : V -> text.
Definition letters : text := tx "mdvsk".
(** The value that a letter stands for, with its symbol. *)
Definition item_for (fs : moment_methods V) (c : ascii) : text :=
  match c with
  | "m" => tx "μ=" ++ fmt3 (f_mean fs)
  | "d" => tx "σ=" ++ fmt3 (f_std fs)
  | "v" => tx "σ²=" ++ fmt3 (f_var fs)
  | "s" => tx "γ=" ++ fmt3 (f_skew fs)
  | "k" => tx "κ=" ++ fmt3 (f_kurt fs)
  | _ => []
  end%char.
(** The letters without repetitions, in the order in which they first appear. *)
Definition once (s : text) : text := rev (nodup ascii_dec (rev s)).
(** The name of the distribution, and below it the moments asked for, if any. *)
Definition name_and_moments (c : call (V := V) (F := F)) (t : text) : Prop :=
  exists name, c_str c = Ok name /\
    match c_types c with
    | None => t = name
    | Some ts => incl (tx ts) letters /\ t = name ++ c_newline :: join (tx ", ") (map (item_for (c_moment c)) (once (tx ts)))
    end.
(** What a plot puts into the title, how it labels its curve, and whether it asks for a legend box. *)
Definition title_is (c : call (V := V) (F := F)) (t : text) : Prop := c_legend c = LStr (tx "title") /\ name_and_moments c t.
Definition label_is (c : call (V := V) (F := F)) (l : option text) : Prop :=
  match c_legend c, l with
  | LNone, None => True
  | LStr s, None => s = tx "title"
  | LStr s, Some t => s <> tx "title" /\ (s = tx "legend" /\ name_and_moments c t \/ s <> tx "legend" /\ t = s)
  | LOther, Some t => name_and_moments c t
  | _, _ => False
  end.
(** The text can be written: str(dist) does not raise and the letters are valid, or neither is needed. *)
Definition writable (c : call (V := V) (F := F)) : Prop := exists l, label_is c l /\ (c_legend c = LStr (tx "title") -> exists t, title_is c t).
Definition boxed (c : call (V := V) (F := F)) : Prop := exists s, c_legend c = LStr s /\ s <> tx "title".
(** The lines of a legend: the labels, without those that are empty or begin with an underscore. *)
Definition lines (labels : list (option text)) : list text :=
  flat_map (fun l => match l with Some t => if match t with [] => true | c :: _ => Ascii.eqb c "_" end then [] else [t] | None => [] end) labels.
(** A state of pyplot: the active figure and the current axes of figures exist. *)
Definition sound (w : world (F := F)) : Prop :=
  (forall f, w_active w = Some f -> f < List.length (w_figures w)) /\
  (forall g a, In g (w_figures w) -> g_current g = Some a -> a < List.length (w_panels w)).
(** Nothing has been drawn, no figure is open. *)
Definition fresh : world (F := F) := mkWorld [] [] None.
(** The axes on which a plot is drawn: those given, or else the current axes of the active figure. *)
Definition current (w : world (F := F)) (a : nat) : Prop :=
  exists f g, w_active w = Some f /\ nth_error (w_figures w) f = Some g /\ g_current g = Some a.
Definition target (c : call (V := V) (F := F)) (w : world (F := F)) (a : nat) : Prop :=
  c_ax c = Some a /\ a < List.length (w_panels w) \/ c_ax c = None /\ current w a.
Definition quiet (c : call (V := V) (F := F)) : Prop := c_before c = Ok tt /\ c_after c = Ok tt.
(** What a plot that does not raise does to the axes it is drawn on. *)
Definition done (c : call (V := V) (F := F)) (p p' : panel) : Prop :=
  (exists l, label_is c l /\ p_labels p' = p_labels p ++ [l]) /\
  (c_legend c = LStr (tx "title") -> exists t, title_is c t /\ p_title p' = Some t) /\
  (c_legend c <> LStr (tx "title") -> p_title p' = p_title p) /\
  (boxed c -> p_legend p' = Some (lines (p_labels p'))) /\
  (~ boxed c -> p_legend p' = p_legend p).
End Spec.

(* ------------------------------------------------------------------ the text *)
Section Proofs.
Context {V F : Type}.
Variable fmt3 : V -> text.
Notation call := (call (V := V) (F := F)).
Notation world := (world (F := F)).
Notation get_moments := (get_moments fmt3).
Notation pieces := (pieces fmt3).

Lemma letter_cases c : In c letters -> c = "m"%char \/ c = "d"%char \/ c = "v"%char \/ c = "s"%char \/ c = "k"%char.
Proof using. cbn. intuition. Qed.
Lemma moments_values (fs : moment_methods V) ts : incl (tx ts) letters ->
  exists vs, moments fs ts = Ok vs /\ List.length vs = List.length (tx ts) /\
    forall seen, pieces seen (tx ts) vs = Ok (map (item_for fmt3 fs) (fold_right (fun c k => fun s => if existsb (Ascii.eqb c) s then k (s ++ [c]) else c :: k (s ++ [c])) (fun _ => []) (tx ts) seen)).
Proof using.
  induction ts as [|c ts IH]; cbn [tx list_ascii_of_string]; intros H.
  - exists []. repeat split.
  - assert (Hc : In c letters) by (apply H; left; reflexivity).
    destruct IH as (vs & E & L & P). { intros x X. apply H. right. exact X. }
    destruct (letter_cases c Hc) as [-> | [-> | [-> | [-> | ->]]]]; cbn [moments moment_of bind]; cbn [Ascii.eqb Bool.eqb]; rewrite E; cbn [bind];
      eexists; (split; [reflexivity|]); (split; [cbn; f_equal; exact L|]); intros seen; cbn [pieces fold_right]; fold (tx ts); rewrite P;
      destruct (existsb _ seen); reflexivity.
Qed.
Lemma existsb_in c s : existsb (Ascii.eqb c) s = true <-> In c s.
Proof using. rewrite existsb_exists. split; [intros (x & I & E); apply Ascii.eqb_eq in E; now subst|intros I; exists c; split; [exact I|apply Ascii.eqb_refl]]. Qed.

Definition walk (s : text) : text -> text :=
  fold_right (fun c k => fun s => if existsb (Ascii.eqb c) s then k (s ++ [c]) else c :: k (s ++ [c])) (fun _ => []) s.
Lemma nodup_snoc l c : nodup ascii_dec (l ++ [c]) = filter (fun x => negb (Ascii.eqb x c)) (nodup ascii_dec l) ++ [c].
Proof using.
  induction l as [|x l IH]; [reflexivity|]. cbn [app nodup]. destruct (in_dec ascii_dec x (l ++ [c])) as [I|I]; destruct (in_dec ascii_dec x l) as [J|J].
  - exact IH.
  - apply in_app_or in I as [I|[I|[]]]; [contradiction|]. subst x. cbn [filter]. rewrite Ascii.eqb_refl. exact IH.
  - exfalso. apply I, in_or_app. auto.
  - cbn [filter]. assert (N : Ascii.eqb x c = false). { apply Ascii.eqb_neq. intros ->. apply I, in_or_app. right. left. reflexivity. }
    rewrite N. cbn. f_equal. exact IH.
Qed.
Lemma once_cons c s : once (c :: s) = c :: filter (fun x => negb (Ascii.eqb x c)) (once s).
Proof using.
  unfold once. cbn [rev]. rewrite nodup_snoc, rev_app_distr. cbn. f_equal. induction (nodup ascii_dec (rev s)) as [|x l IH]; [reflexivity|].
  cbn [filter rev]. rewrite filter_app. cbn. destruct (negb _); cbn; rewrite IH; [reflexivity|now rewrite app_nil_r].
Qed.
Lemma filter_ext' {A} (f g : A -> bool) l : (forall x, In x l -> f x = g x) -> filter f l = filter g l.
Proof using. apply filter_ext_in. Qed.
Lemma filter_filter {A} (f g : A -> bool) l : filter f (filter g l) = filter (fun x => g x && f x) l.
Proof using. induction l as [|x l IH]; [reflexivity|]. cbn. destruct (g x); cbn; [destruct (f x); now rewrite IH|exact IH]. Qed.
Lemma walk_once s : forall seen, walk s seen = filter (fun x => negb (existsb (Ascii.eqb x) seen)) (once s).
Proof using.
  induction s as [|c s IH]; intros seen; [reflexivity|]. rewrite once_cons. cbn [walk fold_right filter]. fold (walk s (seen ++ [c])). rewrite IH, filter_filter.
  assert (E : filter (fun x => negb (existsb (Ascii.eqb x) (seen ++ [c]))) (once s) =
              filter (fun x => negb (Ascii.eqb x c) && negb (existsb (Ascii.eqb x) seen)) (once s)).
  { apply filter_ext. intros x. rewrite existsb_app. cbn. destruct (existsb _ seen), (Ascii.eqb x c); reflexivity. }
  rewrite E. destruct (existsb (Ascii.eqb c) seen); reflexivity.
Qed.
Lemma get_moments_ok fs ts : incl (tx ts) letters ->
  get_moments fs ts = Ok (c_newline :: join (tx ", ") (map (item_for fmt3 fs) (once (tx ts)))).
Proof using.
  intros H. unfold LabelModel.get_moments. destruct (moments_values fs ts H) as (vs & -> & _ & P). cbn [bind]. rewrite P. cbn [bind]. do 4 f_equal.
  fold (walk (tx ts)). rewrite walk_once. cbn [existsb negb]. induction (once (tx ts)) as [|x l IH]; [reflexivity|]. cbn. now rewrite IH.
Qed.
Lemma get_moments_err fs ts : ~ incl (tx ts) letters -> get_moments fs ts = Err ValueError.
Proof using.
  intros H. unfold LabelModel.get_moments. assert (E : moments fs ts = Err ValueError); [|rewrite E; reflexivity].
  induction ts as [|c ts IH]; [exfalso; apply H; intros x []|]. cbn [moments].
  destruct (in_dec ascii_dec c letters) as [I|I].
  - assert (E : moments fs ts = Err ValueError). { apply IH. intros X. apply H. intros x [<-|Y]; [exact I|apply X, Y]. }
    rewrite E. destruct (letter_cases c I) as [-> | [-> | [-> | [-> | ->]]]]; reflexivity.
  - assert (E : moment_of fs c = Err ValueError); [|rewrite E; reflexivity]. unfold moment_of.
    destruct (Ascii.eqb_spec c "m"); [subst; exfalso; apply I; cbn; auto|].
    destruct (Ascii.eqb_spec c "d"); [subst; exfalso; apply I; cbn; auto|].
    destruct (Ascii.eqb_spec c "v"); [subst; exfalso; apply I; cbn; auto|].
    destruct (Ascii.eqb_spec c "s"); [subst; exfalso; apply I; cbn; auto 6|].
    destruct (Ascii.eqb_spec c "k"); [subst; exfalso; apply I; cbn; auto 7|]. reflexivity.
Qed.
Lemma incl_dec_text ts : {incl (tx ts) letters} + {~ incl (tx ts) letters}.
Proof using.
  destruct (forallb (fun c => if in_dec ascii_dec c letters then true else false) (tx ts)) eqn:E.
  - left. intros x X. rewrite forallb_forall in E. specialize (E x X). destruct (in_dec ascii_dec x letters); [assumption|discriminate].
  - right. intros H. apply not_true_iff_false in E. apply E, forallb_forall. intros x X. destruct (in_dec ascii_dec x letters) as [|N]; [reflexivity|]. exfalso. apply N, H, X.
Qed.

Definition labelled (c : call) (p : panel) : res (panel * option text) :=
  set_label fmt3 (c_str c) (c_moment c) (c_legend c) (c_types c) p.
Lemma nm_spec (c : call) : (exists t, name_and_moments fmt3 c t /\
    (do label <- c_str c; do label <- match c_types c with None => Ok label | Some ts => do m <- get_moments (c_moment c) ts; Ok (label ++ m) end; Ok label) = Ok t) \/
  ((forall t, ~ name_and_moments fmt3 c t) /\ exists e,
    (do label <- c_str c; do label <- match c_types c with None => Ok label | Some ts => do m <- get_moments (c_moment c) ts; Ok (label ++ m) end; Ok label) = Err e).
Proof using.
  unfold name_and_moments. destruct (c_str c) as [n|e] eqn:En; cbn [bind].
  - destruct (c_types c) as [ts|] eqn:Et.
    + destruct (incl_dec_text ts) as [I|I].
      * rewrite (get_moments_ok _ ts I). left. eexists. split; [exists n; split; [reflexivity|split; [exact I|reflexivity]]|reflexivity].
      * rewrite (get_moments_err _ ts I). right. split; [intros t (m & _ & J & _); contradiction|eexists; reflexivity].
    + left. exists n. split; [exists n; auto|reflexivity].
  - right. split; [intros t (m & X & _); discriminate X|eexists; reflexivity].
Qed.
Lemma nm_unique (c : call) t t' : name_and_moments fmt3 c t -> name_and_moments fmt3 c t' -> t = t'.
Proof using.
  intros (n & E & H) (n' & E' & H'). rewrite E in E'. injection E' as ->. destruct (c_types c); [destruct H, H'|]; congruence.
Qed.
Lemma title_eqb s : text_eqb s (tx "title") = true <-> s = tx "title".
Proof using. apply text_eqb_spec. Qed.
(** set_label, as one statement. *)
Lemma labelled_spec (c : call) p : match labelled c p with
  | Ok (p', l) => label_is fmt3 c l /\ (c_legend c = LStr (tx "title") -> exists t, title_is fmt3 c t /\ p' = mkPanel (Some t) (p_labels p) (p_legend p)) /\
                  (c_legend c <> LStr (tx "title") -> p' = p)
  | Err _ => forall l, label_is fmt3 c l -> forall t, ~ title_is fmt3 c t /\ c_legend c = LStr (tx "title")
  end.
Proof using.
  unfold labelled, set_label, label_is, title_is. destruct (c_legend c) as [|s|] eqn:El.
  - split; [exact I|split; [discriminate|reflexivity]].
  - cbn [existsb is_title]. destruct (text_eqb s (tx "title")) eqn:E1; cbn [orb negb].
    + apply title_eqb in E1. destruct (nm_spec c) as [(t & H & E)|(H & e & E)].
      * destruct (c_str c) as [n|]; [|discriminate E]. cbn [bind] in *. destruct (match c_types c with None => _ | Some _ => _ end) as [x|]; [|discriminate E].
        cbn [bind] in *. injection E as ->. subst s. split; [reflexivity|]. split; [|congruence]. intros _. exists t. auto.
      * destruct (c_str c) as [n|]; [|cbn [bind]]. 2: { intros l _ t. split; [intros [_ X]; exact (H t X)|congruence]. }
        cbn [bind] in *. destruct (match c_types c with None => _ | Some _ => _ end) as [x|]; [discriminate E|]. cbn [bind].
        intros l _ t. split; [intros [_ X]; exact (H t X)|congruence].
    + assert (N : s <> tx "title") by (intros X; apply title_eqb in X; congruence).
      destruct (text_eqb s (tx "legend")) eqn:E2; cbn [orb negb].
      * apply text_eqb_spec in E2. destruct (nm_spec c) as [(t & H & E)|(H & e & E)].
        -- destruct (c_str c) as [n|]; [|discriminate E]. cbn [bind] in *. destruct (match c_types c with None => _ | Some _ => _ end) as [x|]; [|discriminate E].
           cbn [bind] in *. injection E as ->. split; [split; [exact N|left; auto]|]. split; [congruence|reflexivity].
        -- assert (X : forall l, match l with Some t => s <> tx "title" /\ (s = tx "legend" /\ name_and_moments fmt3 c t \/ s <> tx "legend" /\ t = s) | None => s = tx "title" end -> False).
           { intros [t|] Y; [|contradiction]. destruct Y as [_ [[_ Y]|[Y _]]]; [exact (H t Y)|contradiction]. }
           destruct (c_str c) as [n|]; [|cbn [bind]; intros l Y; destruct (X l Y)].
           cbn [bind] in *. destruct (match c_types c with None => _ | Some _ => _ end) as [x|]; [discriminate E|]. cbn [bind]. intros l Y; destruct (X l Y).
      * assert (N2 : s <> tx "legend") by (intros Y; apply text_eqb_spec in Y; congruence).
        split; [split; [exact N|right; auto]|]. split; [congruence|reflexivity].
  - cbn [is_title]. destruct (nm_spec c) as [(t & H & E)|(H & e & E)].
    + destruct (c_str c) as [n|]; [|discriminate E]. cbn [bind] in *. destruct (match c_types c with None => _ | Some _ => _ end) as [x|]; [|discriminate E].
      cbn [bind] in *. injection E as ->. split; [exact H|]. split; [congruence|reflexivity].
    + destruct (c_str c) as [n|]; [|cbn [bind]; intros [t|] Y; [destruct (H t Y)|destruct Y]].
      cbn [bind] in *. destruct (match c_types c with None => _ | Some _ => _ end) as [x|]; [discriminate E|]. cbn [bind]. intros [t|] Y; [destruct (H t Y)|destruct Y].
Qed.
Lemma lines_shown l : flat_map shown l = lines l.
Proof using. apply flat_map_ext. intros [[|c r]|]; reflexivity. Qed.

(* ------------------------------------------------------------------ lists *)
Lemma put_length {A} (l : list A) i x : List.length (put l i x) = List.length l.
Proof using. revert i; induction l as [|y l IH]; intros [|i]; cbn; auto. Qed.
Lemma put_same {A} (l : list A) i x : i < List.length l -> nth_error (put l i x) i = Some x.
Proof using. revert i; induction l as [|y l IH]; intros [|i] H; cbn in *; try lia; [reflexivity|]. apply IH. lia. Qed.
Lemma put_other {A} (l : list A) i j x : i <> j -> nth_error (put l i x) j = nth_error l j.
Proof using. revert i j; induction l as [|y l IH]; intros [|i] [|j] H; cbn; try reflexivity; try congruence. apply IH. congruence. Qed.
Lemma put_put {A} (l : list A) i x y : put (put l i x) i y = put l i y.
Proof using. revert i; induction l as [|z l IH]; intros [|i]; cbn; [reflexivity..|]. now rewrite IH. Qed.
Lemma put_id {A} (l : list A) i x : nth_error l i = Some x -> put l i x = l.
Proof using. revert i; induction l as [|z l IH]; intros [|i] H; cbn in *; try discriminate; [congruence|]. now rewrite IH. Qed.

(* ------------------------------------------------------------------ one plot *)
Definition set_panel (w : world) (a : nat) (p : panel) : world := mkWorld (put (w_panels w) a p) (w_figures w) (w_active w).

Lemma side_done (c : call) p1 : (boxed c -> p_legend (side_legend (c_legend c) p1) = Some (lines (p_labels p1))) /\
  (~ boxed c -> p_legend (side_legend (c_legend c) p1) = p_legend p1) /\ p_labels (side_legend (c_legend c) p1) = p_labels p1 /\ p_title (side_legend (c_legend c) p1) = p_title p1.
Proof using.
  unfold side_legend, boxed. destruct (c_legend c) as [|s|]; try (split; [intros (s & X & _); discriminate X|repeat split; reflexivity]).
  destruct (text_eqb s (tx "title")) eqn:E.
  - apply title_eqb in E. split; [intros (s' & X & N); injection X as <-; contradiction|repeat split; reflexivity].
  - split; [cbn; intros _; now rewrite lines_shown|]. split; [|split; reflexivity]. intros N. exfalso. apply N. exists s. split; [reflexivity|]. intros X. apply title_eqb in X. congruence.
Qed.

(** plot with the axes known. *)
Definition plot_at (c : call) (w : world) (a : nat) : world * res nat :=
  match nth_error (w_panels w) a with
  | None => (w, Err AttributeError)
  | Some p =>
      match labelled c p with
      | Err e => (w, Err e)
      | Ok (p, label) =>
          match c_before c with
          | Err e => (set_panel w a p, Err e)
          | Ok _ =>
              let p := mkPanel (p_title p) (p_labels p ++ [label]) (p_legend p) in
              match c_after c with
              | Err e => (set_panel w a p, Err e)
              | Ok _ => (set_panel w a (side_legend (c_legend c) p), Ok a)
              end
          end
      end
  end.
Lemma plot_eq (c : call) w : plot fmt3 c w = match get_ax (c_ax c) (c_figsize c) w with Err e => (w, Err e) | Ok (a, w') => plot_at c w' a end.
Proof using. reflexivity. Qed.

Lemma plot_at_ok (c : call) w a w' r : plot_at c w a = (w', Ok r) -> r = a /\ quiet c /\ exists p p', nth_error (w_panels w) a = Some p /\ w' = set_panel w a p' /\ done fmt3 c p p'.
Proof using.
  unfold plot_at, quiet. destruct (nth_error (w_panels w) a) as [p|] eqn:Ep; [|discriminate]. assert (S := labelled_spec c p).
  destruct (labelled c p) as [[p1 l]|e]; [|discriminate]. destruct (c_before c) as [[]|e]; [|discriminate]. destruct (c_after c) as [[]|e]; [|discriminate].
  intros X. injection X as <- <-. split; [reflexivity|]. split; [split; reflexivity|]. exists p. eexists. split; [reflexivity|]. split; [reflexivity|].
  destruct S as (Sl & St & Sn). set (p2 := mkPanel (p_title p1) (p_labels p1 ++ [l]) (p_legend p1)). destruct (side_done c p2) as (B1 & B2 & B3 & B4).
  assert (P1 : p_labels p1 = p_labels p /\ p_legend p1 = p_legend p).
  { destruct (text_eqb (match c_legend c with LStr s => s | _ => [] end) (tx "title")) eqn:E.
    - apply title_eqb in E. destruct (c_legend c) as [|s|]; try discriminate E. subst s. destruct (St eq_refl) as (t & _ & ->). split; reflexivity.
    - assert (N : c_legend c <> LStr (tx "title")). { intros X. rewrite X in E. cbn in E. discriminate E. } rewrite (Sn N). split; reflexivity. }
  destruct P1 as [P1 P2]. unfold done. rewrite B3, B4. cbn [p2 p_labels p_title p_legend]. split; [exists l; split; [exact Sl|now rewrite P1]|]. split; [|split; [|split]].
  - intros X. destruct (St X) as (t & T & ->). exists t. split; [exact T|reflexivity].
  - intros X. now rewrite (Sn X).
  - intros X. rewrite (B1 X). reflexivity.
  - intros X. rewrite (B2 X). cbn. exact P2.
Qed.
Lemma plot_at_quiet (c : call) w a p : nth_error (w_panels w) a = Some p -> writable fmt3 c -> quiet c ->
  exists w', plot_at c w a = (w', Ok a).
Proof using.
  intros Hp (l & Hl & Ht) [Hb Ha]. unfold plot_at. rewrite Hp. assert (S := labelled_spec c p). destruct (labelled c p) as [[p1 l1]|e].
  - rewrite Hb, Ha. eexists. reflexivity.
  - destruct (S l Hl (tx "")) as [_ E]. destruct (Ht E) as (t & T). destruct (S l Hl t) as [N _]. contradiction.
Qed.
(** What a plot that raises leaves: at most the title and one more curve; the legend box stays. *)
Lemma plot_at_err (c : call) w a w' e : plot_at c w a = (w', Err e) ->
  w_figures w' = w_figures w /\ w_active w' = w_active w /\ List.length (w_panels w') = List.length (w_panels w) /\ (forall b, b <> a -> nth_error (w_panels w') b = nth_error (w_panels w) b) /\
  forall p, nth_error (w_panels w) a = Some p -> exists p', nth_error (w_panels w') a = Some p' /\ p_legend p' = p_legend p /\
    (~ (writable fmt3 c /\ c_before c = Ok tt) -> p_labels p' = p_labels p) /\
    (writable fmt3 c -> c_before c = Ok tt -> c_after c = Err e /\ exists l, label_is fmt3 c l /\ p_labels p' = p_labels p ++ [l]) /\
    (~ (writable fmt3 c /\ c_legend c = LStr (tx "title")) -> p_title p' = p_title p) /\
    (writable fmt3 c -> c_legend c = LStr (tx "title") -> exists t, title_is fmt3 c t /\ p_title p' = Some t).
Proof using.
  unfold plot_at. destruct (nth_error (w_panels w) a) as [p|] eqn:Ep.
  2: { intros X. injection X as <- _. do 3 (split; [reflexivity|]). split; [reflexivity|discriminate]. }
  assert (L : a < List.length (w_panels w)) by (apply nth_error_Some; congruence).
  assert (S := labelled_spec c p). destruct (labelled c p) as [[p1 l]|e1].
  2: { assert (NW : ~ writable fmt3 c).
       { intros (l & Hl & Ht). destruct (S l Hl (tx "")) as [_ E]. destruct (Ht E) as (t & T). destruct (S l Hl t) as [N _]. contradiction. }
       intros X. injection X as <- _. do 3 (split; [reflexivity|]). split; [reflexivity|]. intros p' X. injection X as <-. exists p. split; [exact Ep|]. split; [reflexivity|].
       split; [reflexivity|]. split; [intros W; contradiction|]. split; [reflexivity|intros W; contradiction]. }
  destruct S as (Sl & St & Sn).
  assert (W : writable fmt3 c). { exists l. split; [exact Sl|]. intros X. destruct (St X) as (t & T & _). exists t. exact T. }
  assert (P1 : p_labels p1 = p_labels p /\ p_legend p1 = p_legend p /\ (c_legend c <> LStr (tx "title") -> p_title p1 = p_title p) /\ (c_legend c = LStr (tx "title") -> exists t, title_is fmt3 c t /\ p_title p1 = Some t)).
  { destruct (text_eqb (match c_legend c with LStr s => s | _ => [] end) (tx "title")) eqn:E.
    - apply title_eqb in E. destruct (c_legend c) as [|s|]; try discriminate E. subst s. destruct (St eq_refl) as (t & T & ->). split; [reflexivity|]. split; [reflexivity|]. split; [congruence|]. intros _. exists t. auto.
    - assert (N : c_legend c <> LStr (tx "title")). { intros X. rewrite X in E. cbn in E. discriminate E. } rewrite (Sn N). split; [reflexivity|]. split; [reflexivity|]. split; [reflexivity|congruence]. }
  destruct P1 as (P1 & P2 & P3 & P4). destruct (c_before c) as [[]|e1].
  - destruct (c_after c) as [[]|e2]; [discriminate|]. intros X. injection X as <- <-. unfold set_panel. cbn [w_figures w_active w_panels].
    split; [reflexivity|]. split; [reflexivity|]. split; [apply put_length|]. split; [intros b Hb; apply put_other; congruence|].
    intros p' X. injection X as <-. eexists. split; [apply put_same, L|]. cbn [p_legend p_labels p_title]. split; [exact P2|].
    split; [intros N; exfalso; apply N; auto|]. split; [intros _ _; split; [reflexivity|]; exists l; split; [exact Sl|now rewrite P1]|].
    split; [intros N; apply P3; intros X; apply N; auto|]. intros _. exact P4.
  - intros X. injection X as <- <-. unfold set_panel. cbn [w_figures w_active w_panels].
    split; [reflexivity|]. split; [reflexivity|]. split; [apply put_length|]. split; [intros b Hb; apply put_other; congruence|].
    intros p' X. injection X as <-. eexists. split; [apply put_same, L|]. split; [exact P2|].
    split; [intros _; exact P1|]. split; [discriminate|]. split; [intros N; apply P3; intros X; apply N; auto|]. intros _. exact P4.
Qed.
Lemma get_ax_given (c : call) (w : world) a : target c w a -> get_ax (c_ax c) (c_figsize c) w = Ok (a, w).
Proof using.
  unfold get_ax. intros [[-> _]|[-> (f & g & A & E & C)]]; [reflexivity|]. rewrite A, E. destruct g as [z [b|]]; cbn in C; [|discriminate]. now injection C as ->.
Qed.

Lemma plot_target (c : call) w a : target c w a -> plot fmt3 c w = plot_at c w a.
Proof using. intros T. rewrite plot_eq, (get_ax_given c w a T). reflexivity. Qed.
Lemma target_set (c : call) w a b p : target c w a -> target c (set_panel w b p) a.
Proof using. unfold target, set_panel. cbn. rewrite put_length. exact (fun x => x). Qed.

(** Several plots on the same axes. *)
Lemma plots_target cs : forall w a p, Forall (fun c => target c w a) cs -> nth_error (w_panels w) a = Some p ->
  forall w' l, plots fmt3 cs w = (w', Ok l) -> l = repeat a (List.length cs) /\ exists p' ls, w' = set_panel w a p' /\
    Forall2 (label_is fmt3) cs ls /\ p_labels p' = p_labels p ++ ls /\
    (forall before c after, cs = before ++ c :: after -> c_legend c = LStr (tx "title") -> Forall (fun x => c_legend x <> LStr (tx "title")) after ->
       exists t, title_is fmt3 c t /\ p_title p' = Some t) /\
    (Forall (fun x => c_legend x <> LStr (tx "title")) cs -> p_title p' = p_title p) /\
    (forall before c after, cs = before ++ c :: after -> boxed c -> Forall (fun x => ~ boxed x) after ->
       p_legend p' = Some (lines (p_labels p ++ firstn (S (List.length before)) ls))) /\
    (Forall (fun x => ~ boxed x) cs -> p_legend p' = p_legend p).
Proof using.
  induction cs as [|c cs IH]; intros w a p Hc Hp w' l H.
  - cbn in H. injection H as <- <-. split; [reflexivity|]. exists p, []. split.
    { unfold set_panel. rewrite (put_id _ _ _ Hp). destruct w; reflexivity. }
    split; [constructor|]. split; [now rewrite app_nil_r|]. split; [intros [|] ? ? X; discriminate X|]. split; [reflexivity|]. split; [intros [|] ? ? X; discriminate X|reflexivity].
  - cbn [plots] in H. inversion Hc as [|x y T Ts]; subst x y. rewrite (plot_target c w a T) in H. destruct (plot_at c w a) as [w1 [r|e]] eqn:E; [|discriminate H].
    apply plot_at_ok in E as (-> & _ & q & p1 & Q & -> & D). rewrite Hp in Q. injection Q as <-.
    assert (La : a < List.length (w_panels w)) by (apply nth_error_Some; congruence).
    assert (Ts1 : Forall (fun c => target c (set_panel w a p1) a) cs). { eapply Forall_impl; [|exact Ts]. intros x HX. apply target_set, HX. }
    assert (Hp1 : nth_error (w_panels (set_panel w a p1)) a = Some p1) by (apply put_same, La).
    destruct (plots fmt3 cs (set_panel w a p1)) as [w2 [l2|e2]] eqn:E2; [|discriminate H]. cbn in H. injection H as <- <-.
    destruct (IH _ _ _ Ts1 Hp1 _ _ E2) as (-> & p' & ls & -> & F2 & Lb & T1 & T2 & B1 & B2).
    destruct D as ((lb & Dl & Dp) & D1 & D2 & D3 & D4). split; [reflexivity|]. exists p', (lb :: ls). split.
    { unfold set_panel. cbn. now rewrite put_put. }
    split; [constructor; assumption|]. split; [rewrite Lb, Dp, <- app_assoc; reflexivity|]. split; [|split; [|split]].
    + intros [|b before] x after X HT HA; cbn in X; injection X as <- ->.
      * destruct (D1 HT) as (t & Ht & Et). exists t. split; [exact Ht|]. rewrite (T2 HA). exact Et.
      * apply (T1 before x after eq_refl HT HA).
    + intros X. inversion X as [|x y X1 X2]; subst x y. rewrite (T2 X2). apply D2, X1.
    + intros [|b before] x after X HT HA; cbn in X; injection X as <- ->.
      * rewrite (B2 HA), (D3 HT), Dp. reflexivity.
      * rewrite (B1 before x after eq_refl HT HA), Dp, <- app_assoc. reflexivity.
    + intros X. inversion X as [|x y X1 X2]; subst x y. rewrite (B2 X2). apply D4, X1.
Qed.
Lemma get_ax_fresh (c : call) : c_ax c = None ->
  get_ax (c_ax c) (c_figsize c) fresh = Ok (0, mkWorld [empty] [mkFigure (c_figsize c) (Some 0)] (Some 0)).
Proof using. intros ->. reflexivity. Qed.
End Proofs.

(* ------------------------------------------------------------------ the notice *)
Lemma lstrip_keep t f : match f with [] => False | c :: _ => is_space c = false end ->
  (exists t', lstrip (t ++ c_newline :: f) = t' ++ c_newline :: f) \/ lstrip (t ++ c_newline :: f) = f.
Proof.
  intros Hf. assert (E0 : lstrip f = f). { destruct f as [|c f]; [destruct Hf|]. cbn. now rewrite Hf. }
  induction t as [|c t IH].
  - right. cbn [app lstrip]. change (is_space c_newline) with true. cbn. exact E0.
  - cbn [app lstrip]. destruct (is_space c); [exact IH|]. left. exists (c :: t). reflexivity.
Qed.
Lemma rstrip_newline u c : is_space c = false -> rev (lstrip (rev ((u ++ [c]) ++ [c_newline]))) = u ++ [c].
Proof.
  intros H. rewrite !rev_app_distr. cbn [rev app lstrip]. change (is_space c_newline) with true. cbn. rewrite H. cbn. now rewrite rev_involutive.
Qed.
Lemma last_line trace u c : ~ In c_newline (u ++ [c]) -> is_space c = false -> match u with [] => False | d :: _ => is_space d = false end ->
  last_of (split_on c_newline (strip (trace ++ [c_newline] ++ (u ++ [c]) ++ [c_newline]))) = u ++ [c].
Proof.
  intros N Hc Hu. unfold strip. cbn [app]. destruct (lstrip_keep trace ((u ++ [c]) ++ [c_newline])) as [(t' & ->) | ->]; [destruct u; [destruct Hu|exact Hu]| |].
  - change (t' ++ c_newline :: (u ++ [c]) ++ [c_newline]) with (t' ++ [c_newline] ++ (u ++ [c]) ++ [c_newline]).
    rewrite app_assoc, app_assoc. rewrite (app_assoc (t' ++ [c_newline]) u [c]). rewrite (rstrip_newline _ c Hc).
    rewrite <- app_assoc, <- app_assoc. cbn [app]. destruct (split_ends c_newline t' (u ++ [c]) N) as (p & ps & ->). unfold last_of. rewrite app_comm_cons. apply last_last.
  - rewrite (rstrip_newline u c Hc). rewrite (split_free _ _ N). reflexivity.
Qed.
Lemma last_part sep s : exists pre, s = pre ++ last_of (split_on sep s) /\ ~ In sep (last_of (split_on sep s)) /\ (pre = [] \/ exists q, pre = q ++ [sep]).
Proof.
  destruct (in_dec ascii_dec sep s) as [I|I].
  - assert (X : exists q f, s = q ++ sep :: f /\ ~ In sep f).
    { clear -I. induction s as [|c s IH]; [destruct I|]. destruct (in_dec ascii_dec sep s) as [J|J].
      - destruct (IH J) as (q & f & -> & N). exists (c :: q), f. auto.
      - destruct I as [->|I]; [|contradiction]. exists [], s. auto. }
    destruct X as (q & f & -> & N). destruct (split_ends sep q f N) as (p & ps & ->). unfold last_of. rewrite app_comm_cons, last_last.
    exists (q ++ [sep]). split; [now rewrite <- app_assoc|]. split; [exact N|right; exists q; reflexivity].
  - rewrite (split_free _ _ I). exists []. cbn. auto.
Qed.
Lemma last_part_unique sep s pre f : s = pre ++ f -> ~ In sep f -> (pre = [] \/ exists q, pre = q ++ [sep]) -> last_of (split_on sep s) = f.
Proof.
  intros -> N [-> | (q & ->)]; cbn.
  - now rewrite (split_free _ _ N).
  - rewrite <- app_assoc. cbn. destruct (split_ends sep q f N) as (p & ps & ->). unfold last_of. now rewrite app_comm_cons, last_last.
Qed.

(** The line that is printed: the name of the exception and its message. *)
Definition needs_notebook (name : text) : text := tx "RuntimeError: To run " ++ name ++ tx ", you need to call it from within a Jupyter notebook or Jupyter lab.".
Definition needs_widget (name : text) : text := tx "RuntimeError: To run " ++ name ++ tx ", you need use the magic `%matplotlib widget`".
(** [c] is the letter [d], small or capital. *)
Definition same_letter (c d : ascii) : Prop := c = d \/ exists k, (k < 26)%nat /\ nat_of_ascii c = (65 + k)%nat /\ nat_of_ascii d = (97 + k)%nat.
(** The backend, without what is before its last underscore and without regard to capitals, is one of three. *)
Definition widget_backend (backend : text) : Prop :=
  exists pre f, backend = pre ++ f /\ ~ In "_"%char f /\ (pre = [] \/ exists q, pre = q ++ ["_"%char]) /\
    exists known, In known [tx "ipympl"; tx "widget"; tx "nbagg"] /\ Forall2 same_letter f known.
Definition a_name (name : text) : Prop := ~ In c_newline name.

Lemma lower_same c d : (forall k, (k < 26)%nat -> nat_of_ascii d <> (65 + k)%nat) -> lower_char c = d <-> same_letter c d.
Proof.
  intros ND. unfold lower_char, same_letter, code. pose proof (nat_ascii_bounded c) as Bc.
  destruct ((65 <=? nat_of_ascii c)%nat && (nat_of_ascii c <=? 90)%nat) eqn:E.
  - apply andb_true_iff in E as [E1 E2]. apply Nat.leb_le in E1, E2. split.
    + intros <-. right. exists (nat_of_ascii c - 65)%nat. rewrite nat_ascii_embedding by lia. lia.
    + intros [->|(k & K & C & D)].
      * exfalso. apply (ND (nat_of_ascii d - 65)%nat); lia.
      * rewrite C, <- (ascii_nat_embedding d), D. f_equal. lia.
  - split; [intros ->; left; reflexivity|]. intros [->|(k & K & C & D)]; [reflexivity|]. exfalso. rewrite C in E.
    apply andb_false_iff in E as [E|E]; apply Nat.leb_gt in E; lia.
Qed.
Lemma lower_text f known : Forall (fun d => forall k, (k < 26)%nat -> nat_of_ascii d <> (65 + k)%nat) known ->
  map lower_char f = known <-> Forall2 same_letter f known.
Proof.
  intro N. revert f. induction N as [|d known Nd N IH]; intro f; destruct f as [|c f]; cbn [map].
  - split; [constructor|reflexivity].
  - split; [discriminate|intro F; inversion F].
  - split; [discriminate|intro F; inversion F].
  - split.
    + intro E. injection E as E1 E2. constructor; [apply lower_same; assumption | apply IH; exact E2].
    + intro F. inversion F as [|? ? ? ? F1 F2]; subst. f_equal; [apply lower_same; assumption | apply IH; exact F2].
Qed.
Lemma lower_known f : In (map lower_char f) [tx "ipympl"; tx "widget"; tx "nbagg"] <->
  exists known, In known [tx "ipympl"; tx "widget"; tx "nbagg"] /\ Forall2 same_letter f known.
Proof.
  assert (N : Forall (Forall (fun d => forall k, (k < 26)%nat -> nat_of_ascii d <> (65 + k)%nat)) [tx "ipympl"; tx "widget"; tx "nbagg"])
    by (repeat constructor; intros k K; cbn; lia).
  rewrite Forall_forall in N. split.
  - intro I. eexists. split; [exact I|]. apply lower_text; [apply N; exact I|reflexivity].
  - intros (known & I & F). apply lower_text in F; [rewrite F; exact I|apply N; exact I].
Qed.
Lemma widget_backend_eqb b : existsb (text_eqb (map lower_char (last_of (split_on "_" b)))) [tx "ipympl"; tx "widget"; tx "nbagg"] = true <-> widget_backend b.
Proof.
  rewrite existsb_exists. unfold widget_backend. split.
  - intros (x & I & E). apply text_eqb_spec in E. destruct (last_part "_" b) as (pre & E1 & E2 & E3). exists pre, (last_of (split_on "_" b)).
    split; [exact E1|]. split; [exact E2|]. split; [exact E3|]. apply lower_known. rewrite E. exact I.
  - intros (pre & f & E1 & E2 & E3 & I). apply lower_known in I. rewrite (last_part_unique _ _ _ _ E1 E2 E3). eexists. split; [exact I|apply text_eqb_refl].
Qed.
Lemma not_in_newline a b : ~ In c_newline a -> ~ In c_newline b -> ~ In c_newline (a ++ b).
Proof. intros A B I. apply in_app_or in I as [I|I]; auto. Qed.
Lemma notebook_line trace name : a_name name ->
  last_of (split_on c_newline (strip (trace ++ [c_newline] ++ tx "RuntimeError: " ++ (tx "To run " ++ name ++ tx ", you need to call it from within a Jupyter notebook or Jupyter lab.") ++ [c_newline]))) = needs_notebook name.
Proof.
  intros N. set (u := tx "RuntimeError: To run " ++ name ++ tx ", you need to call it from within a Jupyter notebook or Jupyter lab").
  assert (E : needs_notebook name = u ++ ["."%char]). { unfold needs_notebook, u. rewrite <- !app_assoc. reflexivity. }
  rewrite E. rewrite <- (last_line trace u "."%char); [|rewrite <- E|reflexivity|reflexivity].
  - do 4 f_equal. rewrite <- E. unfold needs_notebook. cbn [tx list_ascii_of_string app]. rewrite <- !app_assoc. reflexivity.
  - apply not_in_newline; [|apply not_in_newline; [exact N|]]; intros I; cbn in I; repeat (destruct I as [I|I]; [discriminate I|]); destruct I.
Qed.
Lemma widget_line trace name : a_name name ->
  last_of (split_on c_newline (strip (trace ++ [c_newline] ++ tx "RuntimeError: " ++ (tx "To run " ++ name ++ tx ", you need use the magic `%matplotlib widget`") ++ [c_newline]))) = needs_widget name.
Proof.
  intros N. set (u := tx "RuntimeError: To run " ++ name ++ tx ", you need use the magic `%matplotlib widget").
  assert (E : needs_widget name = u ++ ["`"%char]). { unfold needs_widget, u. rewrite <- !app_assoc. reflexivity. }
  rewrite E. rewrite <- (last_line trace u "`"%char); [|rewrite <- E|reflexivity|reflexivity].
  - do 4 f_equal. rewrite <- E. unfold needs_widget. cbn [tx list_ascii_of_string app]. rewrite <- !app_assoc. reflexivity.
  - apply not_in_newline; [|apply not_in_newline; [exact N|]]; intros I; cbn in I; repeat (destruct I as [I|I]; [discriminate I|]); destruct I.
Qed.

(* ------------------------------------------------------------------ theorems *)
(** The moments in a label: below the name, each letter asked for once, in the order of first mention, with its symbol and its
    value. A letter that is none of the five is a ValueError. *)
Theorem C83_moments : forall V fmt3 (fs : moment_methods V) types,
  (incl (tx types) letters -> get_moments fmt3 fs types = Ok (c_newline :: join (tx ", ") (map (item_for fmt3 fs) (once (tx types))))) /\
  (~ incl (tx types) letters -> get_moments fmt3 fs types = Err ValueError).
Proof. intros V fmt3 fs types. split; [apply get_moments_ok|apply get_moments_err]. Qed.
Example C83_moments_example :
  get_moments (fun n => [ascii_of_nat (48 + n)]) {| f_mean := 1; f_std := 2; f_var := 4; f_skew := 5; f_kurt := 6 |} "vmvd"
  = Ok (c_newline :: tx "σ²=4, μ=1, σ=2").
Proof. reflexivity. Qed.

(** A plot is drawn on the axes given or, without them, on the current axes of the active figure. It adds one curve to them,
    with its label, and changes the title only for legend="title" and the legend box only for another string; then the box
    lists the labels of all the curves there. Other axes and all figures stay as they are. It is drawn exactly if the text can
    be written and neither the curve nor the interval raises. *)
Theorem C83_one : forall V F fmt3 (c : call (V := V) (F := F)) w a p, target c w a -> nth_error (w_panels w) a = Some p ->
  (forall w' r, plot fmt3 c w = (w', Ok r) -> r = a /\ w_figures w' = w_figures w /\ w_active w' = w_active w /\
     List.length (w_panels w') = List.length (w_panels w) /\ (forall b, b <> a -> nth_error (w_panels w') b = nth_error (w_panels w) b) /\
     exists p', nth_error (w_panels w') a = Some p' /\ done fmt3 c p p') /\
  ((exists w', plot fmt3 c w = (w', Ok a)) <-> quiet c /\ writable fmt3 c).
Proof.
  intros V F fmt3 c w a p T Hp. rewrite (plot_target fmt3 c w a T). split.
  - intros w' r E. apply plot_at_ok in E as (-> & _ & q & p' & Q & -> & D). rewrite Hp in Q. injection Q as <-.
    assert (La : a < List.length (w_panels w)) by (apply nth_error_Some; congruence). unfold set_panel. cbn [w_panels w_figures w_active].
    split; [reflexivity|]. split; [reflexivity|]. split; [reflexivity|]. split; [apply put_length|]. split; [intros b Hb; apply put_other; congruence|].
    exists p'. split; [apply put_same, La|exact D].
  - split; [|intros [Q W]; apply (plot_at_quiet fmt3 c w a p Hp W Q)]. intros (w' & E). apply plot_at_ok in E as (_ & Q & q & p' & _ & _ & D). split; [exact Q|].
    destruct D as ((l & Dl & _) & D1 & _). exists l. split; [exact Dl|]. intros X. destruct (D1 X) as (t & Ht & _). exists t. exact Ht.
Qed.

(** Without axes and without an active figure the plot makes one figure, of the size asked for, with one pair of axes; an
    active figure without axes gets one pair and keeps its size. *)
Theorem C83_new_axes : forall V F fmt3 (c : call (V := V) (F := F)) w w' r, sound w -> c_ax c = None -> (forall a, ~ current w a) ->
  plot fmt3 c w = (w', Ok r) ->
  (exists p', w_panels w' = w_panels w ++ [p'] /\ done fmt3 c empty p') /\ r = List.length (w_panels w) /\ current w' r /\
  (w_active w = None -> w_figures w' = w_figures w ++ [mkFigure (c_figsize c) (Some r)]) /\
  (forall f, w_active w = Some f -> w_active w' = Some f /\ map g_size (w_figures w') = map g_size (w_figures w)).
Proof.
  intros V F fmt3 c w w' r [S1 S2] Hx Hn. rewrite plot_eq, Hx. unfold get_ax. destruct (w_active w) as [f|] eqn:A.
  - destruct (nth_error (w_figures w) f) as [[z [b|]]|] eqn:G.
    + exfalso. apply (Hn b). exists f, (mkFigure z (Some b)). auto.
    + intros E. apply plot_at_ok in E as (-> & _ & q & p' & Q & -> & D). cbn in Q. rewrite nth_error_app2, Nat.sub_diag in Q by lia. injection Q as <-.
      unfold set_panel. cbn [w_panels w_figures w_active]. assert (Lf : f < List.length (w_figures w)) by (apply nth_error_Some; congruence). split.
      { exists p'. split; [|exact D]. clear. induction (w_panels w) as [|x l IH]; [reflexivity|]. cbn. now rewrite IH. }
      split; [reflexivity|]. split.
      { exists f, (mkFigure z (Some (List.length (w_panels w)))). split; [reflexivity|]. split; [apply put_same, Lf|reflexivity]. }
      split; [discriminate|]. intros f' X. injection X as <-. split; [reflexivity|].
      revert G. clear. generalize (List.length (w_panels w)) as n. revert f. induction (w_figures w) as [|x l IH]; intros [|f] n G; cbn in *; try discriminate; [injection G as ->; reflexivity|].
      f_equal. apply (IH f n G).
    + exfalso. specialize (S1 f eq_refl). apply nth_error_None in G. lia.
  - intros E. apply plot_at_ok in E as (-> & _ & q & p' & Q & -> & D). cbn in Q. rewrite nth_error_app2, Nat.sub_diag in Q by lia. injection Q as <-.
    unfold set_panel. cbn [w_panels w_figures w_active]. split.
    { exists p'. split; [|exact D]. clear. induction (w_panels w) as [|x l IH]; [reflexivity|]. cbn. now rewrite IH. }
    split; [reflexivity|]. split.
    { exists (List.length (w_figures w)), (mkFigure (c_figsize c) (Some (List.length (w_panels w)))). split; [reflexivity|]. split; [|reflexivity].
      cbn. rewrite nth_error_app2, Nat.sub_diag by lia. reflexivity. }
    split; [reflexivity|discriminate].
Qed.

(** Any number of plots on the same axes: the curves are there in the order of the calls, each with its own label; the title is
    that of the last call with legend="title"; the legend box is that of the last call with another string and lists the
    curves up to that call, those of earlier plots too; without such a call title and box stay. *)
Theorem C83_history : forall V F fmt3 (cs : list (call (V := V) (F := F))) w a p,
  Forall (fun c => target c w a) cs -> nth_error (w_panels w) a = Some p ->
  forall w' l, plots fmt3 cs w = (w', Ok l) -> l = repeat a (List.length cs) /\ w_figures w' = w_figures w /\ w_active w' = w_active w /\
  (forall b, b <> a -> nth_error (w_panels w') b = nth_error (w_panels w) b) /\
  exists p' ls, nth_error (w_panels w') a = Some p' /\ Forall2 (label_is fmt3) cs ls /\ p_labels p' = p_labels p ++ ls /\
    (forall before c after, cs = before ++ c :: after -> c_legend c = LStr (tx "title") -> Forall (fun x => c_legend x <> LStr (tx "title")) after ->
       exists t, title_is fmt3 c t /\ p_title p' = Some t) /\
    (Forall (fun x => c_legend x <> LStr (tx "title")) cs -> p_title p' = p_title p) /\
    (forall before c after, cs = before ++ c :: after -> boxed c -> Forall (fun x => ~ boxed x) after ->
       p_legend p' = Some (lines (p_labels p ++ firstn (S (List.length before)) ls))) /\
    (Forall (fun x => ~ boxed x) cs -> p_legend p' = p_legend p).
Proof.
  intros V F fmt3 cs w a p T Hp w' l E. destruct (plots_target fmt3 cs w a p T Hp w' l E) as (-> & p' & ls & -> & R).
  assert (La : a < List.length (w_panels w)) by (apply nth_error_Some; congruence). unfold set_panel. cbn [w_panels w_figures w_active].
  split; [reflexivity|]. split; [reflexivity|]. split; [reflexivity|]. split; [intros b Hb; apply put_other; congruence|].
  exists p', ls. split; [apply put_same, La|exact R].
Qed.

(** Starting from nothing, with no axes given, all plots are on the same axes of one figure, and its size is the one the first
    call asks for. *)
Theorem C83_fresh : forall V F fmt3 (c : call (V := V) (F := F)) cs w' l, Forall (fun x => c_ax x = None) (c :: cs) ->
  plots fmt3 (c :: cs) fresh = (w', Ok l) ->
  exists p' ls, w' = mkWorld [p'] [mkFigure (c_figsize c) (Some 0)] (Some 0) /\ Forall2 (label_is fmt3) (c :: cs) ls /\ p_labels p' = ls.
Proof.
  intros V F fmt3 c cs w' l H E. inversion H as [|x y Hc Hcs]; subst x y.
  set (w0 := mkWorld [empty] [mkFigure (c_figsize c) (Some 0)] (Some 0)).
  assert (E' : plots fmt3 (c :: cs) w0 = (w', Ok l)).
  { rewrite <- E. cbn [plots]. rewrite !plot_eq. rewrite (get_ax_fresh c Hc), Hc. reflexivity. }
  assert (T : Forall (fun c => target c w0 0) (c :: cs)).
  { eapply Forall_impl; [|exact H]. intros x Hx. right. split; [exact Hx|]. exists 0, (mkFigure (c_figsize c) (Some 0)). auto. }
  destruct (plots_target fmt3 (c :: cs) w0 0 empty T eq_refl w' l E') as (_ & p' & ls & -> & F2 & L & _).
  exists p', ls. split; [reflexivity|]. split; [exact F2|exact L].
Qed.

(** Parameters that are arrays: one plot for each row, and after the first all of them on the axes of the first. *)
Theorem C83_rows : forall V F fmt3 (c : call (V := V) (F := F)) cs ax w w' r, plot_rows fmt3 (c :: cs) ax w = (w', Ok r) ->
  exists a w1, plot fmt3 (with_ax c ax) w = (w1, Ok a) /\ r = Some a /\
    plots fmt3 (map (fun x => with_ax x (Some a)) cs) w1 = (w', Ok (repeat a (List.length cs))).
Proof.
  intros V F fmt3 c cs ax w w' r. cbn [plot_rows]. destruct (plot fmt3 (with_ax c ax) w) as [w1 [a|e]]; [|discriminate]. intros E.
  exists a, w1. split; [reflexivity|]. revert w1 E. induction cs as [|d cs IH]; intros w1 E; cbn [plot_rows] in E.
  - injection E as <- <-. auto.
  - cbn [map plots]. assert (A : forall w2 b, plot fmt3 (with_ax d (Some a)) w1 = (w2, Ok b) -> b = a).
    { intros w2 b X. rewrite plot_eq in X. cbn [get_ax with_ax c_ax] in X. apply plot_at_ok in X as [X _]. exact X. }
    destruct (plot fmt3 (with_ax d (Some a)) w1) as [w2 [b|e]] eqn:Ed; [|discriminate E]. rewrite (A _ _ eq_refl) in *. destruct (IH w2 E) as [-> ->]. auto.
Qed.

(** A plot that raises leaves the legend box, the figures and other axes as they were; with legend="title" the title has been
    written if it could be, and the curve is there exactly if it was the point interval that raised. *)
Theorem C83_raises : forall V F fmt3 (c : call (V := V) (F := F)) w a p w' e, target c w a -> nth_error (w_panels w) a = Some p ->
  plot fmt3 c w = (w', Err e) -> w_figures w' = w_figures w /\ w_active w' = w_active w /\
  (forall b, b <> a -> nth_error (w_panels w') b = nth_error (w_panels w) b) /\
  exists p', nth_error (w_panels w') a = Some p' /\ p_legend p' = p_legend p /\
    (~ (writable fmt3 c /\ c_before c = Ok tt) -> p_labels p' = p_labels p) /\
    (writable fmt3 c -> c_before c = Ok tt -> c_after c = Err e /\ exists l, label_is fmt3 c l /\ p_labels p' = p_labels p ++ [l]) /\
    (~ (writable fmt3 c /\ c_legend c = LStr (tx "title")) -> p_title p' = p_title p) /\
    (writable fmt3 c -> c_legend c = LStr (tx "title") -> exists t, title_is fmt3 c t /\ p_title p' = Some t).
Proof.
  intros V F fmt3 c w a p w' e T Hp E. rewrite (plot_target fmt3 c w a T) in E. destruct (plot_at_err fmt3 c w a w' e E) as (H1 & H2 & _ & H4 & H5).
  split; [exact H1|]. split; [exact H2|]. split; [exact H4|]. exact (H5 p Hp).
Qed.

(** FINDING. If a plot without axes raises and no figure is open, an empty figure stays behind and is the active one: the next
    plot is drawn there, whatever size it asks for. *)
Theorem C83_left_behind_refuted : forall V F fmt3 (c : call (V := V) (F := F)) w e, c_ax c = None -> plot fmt3 c fresh = (w, Err e) ->
  w_figures w = [mkFigure (c_figsize c) (Some 0)] /\ current w 0.
Proof.
  intros V F fmt3 c w e Hx. rewrite plot_eq, (get_ax_fresh c Hx). intros E. apply plot_at_err in E as (E1 & E2 & _). cbn in E1, E2. split; [exact E1|].
  exists 0, (mkFigure (c_figsize c) (Some 0)). rewrite E1, E2. auto.
Qed.

Definition with_size {V F} (c : call (V := V) (F := F)) (z : option F) : call :=
  mkCall (c_str c) (c_moment c) (c_types c) (c_legend c) z (c_ax c) (c_before c) (c_after c).
(** FINDING. While a figure with axes is active, or axes are given, figsize has no effect. *)
Theorem C83_figsize_refuted : forall V F fmt3 (c : call (V := V) (F := F)) w a z, target c w a -> plot fmt3 (with_size c z) w = plot fmt3 c w.
Proof. intros V F fmt3 c w a z T. rewrite (plot_target fmt3 c w a T), (plot_target fmt3 (with_size c z) w a T). reflexivity. Qed.

(** FINDING. The documentation says that letters other than m, d, v, s and k are ignored. They are a ValueError and nothing is
    drawn, unless legend is None or a text of the caller's; then the argument moments is not looked at and no moments are
    shown, whatever it is. *)
Theorem C83_other_letters_refuted : forall V F fmt3 (c : call (V := V) (F := F)) w a p name types, target c w a -> nth_error (w_panels w) a = Some p ->
  c_str c = Ok name -> c_types c = Some types ->
  (~ incl (tx types) letters -> c_legend c = LOther \/ c_legend c = LStr (tx "title") \/ c_legend c = LStr (tx "legend") -> plot fmt3 c w = (w, Err ValueError)) /\
  (c_legend c = LNone \/ (exists s, c_legend c = LStr s /\ s <> tx "title" /\ s <> tx "legend") -> forall other,
     plot fmt3 (mkCall (c_str c) (c_moment c) other (c_legend c) (c_figsize c) (c_ax c) (c_before c) (c_after c)) w = plot fmt3 c w).
Proof.
  intros V F fmt3 c w a p name types T Hp Hn Ht. rewrite (plot_target fmt3 c w a T). split.
  - intros N L. unfold plot_at, labelled. rewrite Hp. unfold set_label. rewrite Hn, Ht. cbn [bind]. rewrite (get_moments_err fmt3 (c_moment c) types N).
    destruct L as [-> | [-> | ->]]; reflexivity.
  - intros L other. set (c' := mkCall _ _ _ _ _ _ _ _). assert (T' : target c' w a) by exact T. rewrite (plot_target fmt3 c' w a T').
    unfold plot_at, labelled. rewrite Hp. unfold c', set_label. cbn [c_str c_moment c_types c_legend c_before c_after]. destruct L as [-> | (s & -> & N1 & N2)]; [reflexivity|].
    cbn [existsb]. destruct (text_eqb s (tx "title")) eqn:E1; [apply text_eqb_spec in E1; contradiction|]. destruct (text_eqb s (tx "legend")) eqn:E2; [apply text_eqb_spec in E2; contradiction|].
    reflexivity.
Qed.

(** FINDING. With legend=True the curve gets its label, but no box is made; the label shows up when a later plot on the same
    axes asks for a legend. *)
Theorem C83_true_refuted : forall V F fmt3 (c c2 : call (V := V) (F := F)) w a p w1 w2, target c w a -> target c2 w a -> nth_error (w_panels w) a = Some p ->
  c_legend c = LOther -> boxed c2 -> plot fmt3 c w = (w1, Ok a) -> plot fmt3 c2 w1 = (w2, Ok a) ->
  exists t p1 p2, name_and_moments fmt3 c t /\ nth_error (w_panels w1) a = Some p1 /\ p_legend p1 = p_legend p /\
    nth_error (w_panels w2) a = Some p2 /\ exists ls, p_legend p2 = Some ls /\ (forall ch r, t = ch :: r -> ch <> "_"%char -> In t ls).
Proof.
  intros V F fmt3 c c2 w a p w1 w2 T T2 Hp L B E1 E2. rewrite (plot_target fmt3 c w a T) in E1.
  apply plot_at_ok in E1 as (_ & _ & q & p1 & Q & -> & D). rewrite Hp in Q. injection Q as <-.
  assert (La : a < List.length (w_panels w)) by (apply nth_error_Some; congruence).
  rewrite (plot_target fmt3 c2 _ a (target_set c2 w a a p1 T2)) in E2. apply plot_at_ok in E2 as (_ & _ & q & p2 & Q & -> & D2).
  cbn in Q. rewrite (put_same _ _ _ La) in Q. injection Q as <-. destruct D as ((l & Dl & Dp) & _ & _ & _ & D4). unfold label_is in Dl. rewrite L in Dl.
  destruct l as [t|]; [|destruct Dl]. destruct D2 as ((l2 & _ & Dp2) & _ & _ & D3 & _).
  exists t, p1, p2. split; [exact Dl|]. split; [apply put_same, La|]. split; [apply D4; intros (s & X & _); congruence|].
  split; [apply put_same; cbn; now rewrite put_length|]. exists (lines (p_labels p2)). split; [exact (D3 B)|]. intros ch r -> N.
  rewrite Dp2, Dp. unfold lines. apply in_flat_map. exists (Some (ch :: r)). split; [apply in_or_app; left; apply in_or_app; right; left; reflexivity|].
  apply Ascii.eqb_neq in N. rewrite N. left. reflexivity.
Qed.

(** The notice of a tool is the one line with the message, whatever the traceback above it is. It is printed exactly if there is
    no IPython shell, or a widget is needed and the shell is that of a notebook with a backend that is no widget. *)
Theorem C83_notice : forall trace shell backend name need_widget line, a_name name ->
  check_inside_notebook trace shell backend name need_widget = Some line <->
  shell = None /\ line = needs_notebook name \/
  shell = Some (tx "ZMQInteractiveShell") /\ need_widget = true /\ ~ widget_backend backend /\ line = needs_widget name.
Proof.
  intros trace shell backend name nw line N. unfold check_inside_notebook, notebook_body. destruct shell as [s|].
  - destruct nw; [|split; [discriminate|intros [[X _]|(_ & X & _)]; discriminate X]].
    assert (W := widget_backend_eqb backend). destruct (existsb _ _); rewrite ?andb_false_r, ?andb_true_r; cbn [negb].
    + rewrite ?andb_false_r. split; [discriminate|]. intros [[X _]|(_ & _ & X & _)]; [discriminate X|]. exfalso. apply X, W. reflexivity.
    + rewrite ?andb_true_r. destruct (text_eqb s (tx "ZMQInteractiveShell")) eqn:E.
      * apply text_eqb_spec in E. subst s. rewrite (widget_line trace name N). split.
        -- intros X. injection X as <-. right. split; [reflexivity|]. split; [reflexivity|]. split; [|reflexivity]. intros Y. apply W in Y. discriminate Y.
        -- intros [[X _]|(_ & _ & _ & ->)]; [discriminate X|reflexivity].
      * split; [discriminate|]. intros [[X _]|(X & _)]; [discriminate X|]. injection X as ->. rewrite text_eqb_refl in E. discriminate E.
  - rewrite (notebook_line trace name N). split; [intros X; injection X as <-; left; auto|]. intros [[_ ->]|(X & _)]; [reflexivity|discriminate X].
Qed.

(** FINDING. Nothing depends on the notice: outside a notebook, where the message says that the tool cannot run, it goes on. *)
Theorem C83_goes_on_refuted : forall R trace backend t (rest : res R), exists line,
  start trace None backend t rest = ([line], rest) /\ exists name, line = needs_notebook name.
Proof.
  intros R trace backend t rest. exists (needs_notebook (fst (called_in t))). split; [|eauto]. unfold start, check_inside_notebook, notebook_body.
  rewrite notebook_line; [reflexivity|]. unfold a_name. destruct t; intros I; cbn in I; repeat (destruct I as [I|I]; [discriminate I|]); destruct I.
Qed.

(** FINDING. Roulette and QuartileInt are not named in their notice: it is the constructor that is. *)
Theorem C83_unnamed_refuted : forall R trace backend (rest : res R),
  (forall t, t = Roulette \/ t = QuartileInt -> start trace None backend t rest = ([needs_notebook (tx "__init__")], rest)) /\
  start trace None backend Ppa rest = ([needs_notebook (tx "ppa")], rest) /\
  start trace None backend PlotInteractive rest = ([needs_notebook (tx "plot_interactive")], rest).
Proof.
  intros R trace backend rest. unfold start, check_inside_notebook, notebook_body.
  split; [intros t [-> | ->]|split]; (rewrite notebook_line; [reflexivity|]); unfold a_name; intros I; cbn in I; repeat (destruct I as [I|I]; [discriminate I|]); destruct I.
Qed.

(** FINDING. In IPython outside a notebook no tool says anything. *)
Theorem C83_terminal_refuted : forall R trace shell backend t (rest : res R), shell <> tx "ZMQInteractiveShell" ->
  start trace (Some shell) backend t rest = ([], rest).
Proof.
  intros R trace shell backend t rest N. unfold start, check_inside_notebook, notebook_body. destruct (text_eqb shell (tx "ZMQInteractiveShell")) eqn:E; [apply text_eqb_spec in E; contradiction|].
  destruct (snd (called_in t)); reflexivity.
Qed.
Example C83_notice_example : widget_backend (tx "module://matplotlib_Widget") /\ ~ widget_backend (tx "agg") /\
  start (R := unit) (tx "Traceback (most recent call last):") (Some (tx "ZMQInteractiveShell")) (tx "agg") Ppa (Ok tt) = ([needs_widget (tx "ppa")], Ok tt).
Proof.
  split; [apply widget_backend_eqb; reflexivity|]. split; [intros X; apply widget_backend_eqb in X; discriminate X|]. lazy. reflexivity.
Qed.

(** Three plots: a title, a legend with moments, and a text of one's own. *)
Definition sample_call (name : string) (types : option string) (l : legend_arg) : call (V := nat) (F := nat) :=
  mkCall (Ok (tx name)) {| f_mean := 1; f_std := 2; f_var := 4; f_skew := 5; f_kurt := 6 |} types l (Some 7) None (Ok tt) (Ok tt).
Example C83_applies : plots (fun n => [ascii_of_nat (48 + n)])
    [sample_call "Normal(mu=1, sigma=2)" (Some "md"%string) (LStr (tx "legend")); sample_call "Gamma" None (LStr (tx "title")); sample_call "Beta" (Some "x"%string) (LStr (tx "mine"))] fresh
  = (mkWorld [mkPanel (Some (tx "Gamma")) [Some (tx "Normal(mu=1, sigma=2)" ++ c_newline :: tx "μ=1, σ=2"); None; Some (tx "mine")]
                (Some [tx "Normal(mu=1, sigma=2)" ++ c_newline :: tx "μ=1, σ=2"; tx "mine"])] [mkFigure (Some 7) (Some 0)] (Some 0), Ok [0; 0; 0]).
Proof. lazy. reflexivity. Qed.
Example C83_raises_example : let (w, r) := plot (fun n => [ascii_of_nat (48 + n)]) (sample_call "Beta" (Some "x"%string) (LStr (tx "legend"))) fresh in
  r = Err ValueError /\ w = mkWorld [empty] [mkFigure (Some 7) (Some 0)] (Some 0).
Proof. split; reflexivity. Qed.
Example C83_sound_fresh : sound (F := nat) fresh /\ forall a, ~ current (F := nat) fresh a.
Proof. split; [split; [discriminate|intros g a []]|intros a (f & g & X & _); discriminate X]. Qed.

Print Assumptions C83_moments.
Print Assumptions C83_one.
Print Assumptions C83_new_axes.
Print Assumptions C83_history.
Print Assumptions C83_fresh.
Print Assumptions C83_rows.
Print Assumptions C83_raises.
Print Assumptions C83_left_behind_refuted.
Print Assumptions C83_figsize_refuted.
Print Assumptions C83_other_letters_refuted.
Print Assumptions C83_true_refuted.
Print Assumptions C83_notice.
Print Assumptions C83_goes_on_refuted.
Print Assumptions C83_unnamed_refuted.
Print Assumptions C83_terminal_refuted.
