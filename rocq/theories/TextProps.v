(** Property theorems for the "extra parameters" text box: C39. *)
From Coq Require Import List Bool Ascii String Arith Lia.
From Verif Require Import Base TextModel.
Import ListNotations.

(* ---------------- specification ---------------- *)
(** How a user writes it: Name(key=value, key=value), separated by anything but word characters. *)
Fixpoint sep_by (sep : text) (l : list text) : text :=
  match l with [] => [] | [x] => x | x :: r => (x ++ sep ++ sep_by sep r)%list end.
Definition kwarg (kv : text * text) : text := (fst kv ++ c_equal :: snd kv)%list.
Definition call_text (name : text) (body : text) : text := (name ++ c_open :: body ++ [c_close])%list.
Definition word (w : text) : Prop := w <> [] /\ Forall (fun c => is_word c = true) w.
Definition free_of (cs : list ascii) (s : text) : Prop := Forall (fun c => ~ In c cs) s.
(** A key may be surrounded by blanks; a value is any text float accepts. None of the characters with a meaning. *)
Definition plain_key (k : text) : Prop := free_of [c_comma; c_equal; c_close; c_newline] k.
Definition plain_value (v : text) : Prop := free_of [c_comma; c_equal; c_close; c_newline] v.
Fixpoint all_floats {V} (float : text -> option V) (kvs : list (text * text)) : option (list (text * V)) :=
  match kvs with
  | [] => Some []
  | (k, v) :: r => match float v, all_floats float r with Some x, Some d => Some ((k, x) :: d) | _, _ => None end
  end.

(* ---------------- lemmas ---------------- *)
Lemma text_eqb_spec a : forall b, text_eqb a b = true <-> a = b.
Proof.
  induction a as [|x a IH]; intros [|y b]; cbn; split; intro H; try discriminate; try reflexivity.
  - apply andb_true_iff in H. destruct H as [H1 H2]. apply Ascii.eqb_eq in H1. apply IH in H2. congruence.
  - injection H as -> ->. rewrite Ascii.eqb_refl. apply IH. reflexivity.
Qed.
Lemma text_eqb_refl a : text_eqb a a = true.
Proof. apply text_eqb_spec. reflexivity. Qed.
Lemma text_eqb_neq a b : a <> b -> text_eqb a b = false.
Proof. intro H. destruct (text_eqb a b) eqn:E; [|reflexivity]. apply text_eqb_spec in E. contradiction. Qed.
Lemma find_put {A} (d : list (text * A)) k v k' : dict_find (dict_put d k v) k' = if text_eqb k' k then Some v else dict_find d k'.
Proof.
  induction d as [|[a b] d IH]; cbn; [reflexivity|]. destruct (text_eqb k a) eqn:E.
  - apply text_eqb_spec in E. subst a. cbn. destruct (text_eqb k' k); reflexivity.
  - cbn. rewrite IH. destruct (text_eqb k' a) eqn:E2, (text_eqb k' k) eqn:E3; try reflexivity.
    apply text_eqb_spec in E2, E3. subst. rewrite text_eqb_refl in E. discriminate.
Qed.
Lemma put_new {A} (d : list (text * A)) k v : ~ In k (map fst d) -> dict_put d k v = (d ++ [(k, v)])%list.
Proof.
  induction d as [|[a b] d IH]; cbn; intro H; [reflexivity|]. rewrite text_eqb_neq by (intros ->; apply H; auto).
  rewrite IH; [reflexivity|]. intro X. apply H. auto.
Qed.
Lemma split_free sep s : ~ In sep s -> split_on sep s = [s].
Proof.
  induction s as [|c s IH]; cbn; intro H; [reflexivity|].
  destruct (Ascii.eqb_spec c sep) as [->|N]; [exfalso; apply H; auto|]. rewrite IH; [reflexivity|]. intro X. apply H. auto.
Qed.
Lemma split_app sep s t : ~ In sep s -> split_on sep (s ++ sep :: t) = s :: split_on sep t.
Proof.
  induction s as [|c s IH]; cbn; intro H; [rewrite Ascii.eqb_refl; reflexivity|].
  destruct (Ascii.eqb_spec c sep) as [->|N]; [exfalso; apply H; auto|]. rewrite IH; [reflexivity|]. intro X. apply H. auto.
Qed.
Lemma split_sep_by sep l : l <> [] -> Forall (fun s => ~ In sep s) l -> split_on sep (sep_by [sep] l) = l.
Proof.
  induction l as [|x l IH]; intros N H; [congruence|]. inversion H; subst. destruct l as [|y l]; [apply split_free; auto|].
  change (sep_by [sep] (x :: y :: l)) with (x ++ sep :: sep_by [sep] (y :: l))%list.
  rewrite split_app by auto. f_equal. apply IH; [discriminate|auto].
Qed.
Lemma split_join sep s : sep_by [sep] (split_on sep s) = s.
Proof.
  induction s as [|c s IH]; cbn; [reflexivity|].
  assert (N : split_on sep s <> []) by (clear; induction s as [|a s IH]; cbn; [discriminate|]; destruct (Ascii.eqb a sep); [discriminate|]; destruct (split_on sep s); discriminate).
  destruct (Ascii.eqb_spec c sep) as [->|_].
  - destruct (split_on sep s) as [|p ps] eqn:E; [congruence|]. change (sep :: sep_by [sep] (p :: ps) = sep :: s). rewrite IH. reflexivity.
  - destruct (split_on sep s) as [|p ps]; [congruence|]. destruct ps; cbn in *; rewrite <- IH; reflexivity.
Qed.
Lemma take_word_spec s : let '(w, t) := take_word s in s = (w ++ t)%list /\ Forall (fun c => is_word c = true) w /\ (forall c r, t = c :: r -> is_word c = false).
Proof.
  induction s as [|c s IH]; cbn; [repeat split; [constructor|discriminate]|]. destruct (is_word c) eqn:E.
  - destruct (take_word s) as [w t]. destruct IH as (-> & H & N). repeat split; [constructor; auto|exact N].
  - repeat split; [constructor|]. intros c' r [= <- <-]. exact E.
Qed.
Lemma take_word_app w t : Forall (fun c => is_word c = true) w -> (forall c r, t = c :: r -> is_word c = false) -> take_word (w ++ t) = (w, t).
Proof.
  induction 1 as [|c w Hc Hw IH]; intro N; cbn.
  - destruct t as [|c r]; cbn; [reflexivity|]. rewrite (N c r eq_refl). reflexivity.
  - rewrite Hc, (IH N). reflexivity.
Qed.
Lemma take_close_spec s b t : take_until_close s = Some (b, t) <-> s = (b ++ c_close :: t)%list /\ free_of [c_close; c_newline] b.
Proof.
  revert b t. induction s as [|c s IH]; intros b t; cbn [take_until_close].
  - split; [discriminate|]. intros [H _]. destruct b; discriminate.
  - destruct (Ascii.eqb_spec c c_close) as [->|N1].
    + split; [intros [= <- <-]; split; [reflexivity|constructor]|]. intros [H F]. destruct b as [|x b]; cbn [app] in H; [injection H as ->; reflexivity|].
      injection H as <- _. inversion F; subst. exfalso. apply H1. cbn. auto.
    + destruct (Ascii.eqb_spec c c_newline) as [->|N2].
      * split; [discriminate|]. intros [H F]. destruct b as [|x b]; cbn [app] in H; [injection H as H _; discriminate H|]. injection H as <- _. inversion F; subst.
        exfalso. apply H1. cbn. auto.
      * destruct (take_until_close s) as [[b' t']|] eqn:E.
        -- split; [intros [= <- <-]|].
           ++ destruct (proj1 (IH b' t') eq_refl) as [-> F]. split; [reflexivity|]. constructor; [|exact F]. cbn. intros [H|[H|[]]]; congruence.
           ++ intros [H F]. destruct b as [|x b]; cbn [app] in H; [congruence|]. injection H as <- H. inversion F; subst.
              pose proof (proj2 (IH b t) (conj eq_refl H3)) as X. injection X as -> ->. reflexivity.
        -- split; [discriminate|]. intros [H F]. destruct b as [|x b]; cbn [app] in H; [congruence|]. injection H as <- H. inversion F; subst.
           discriminate (proj2 (IH b t) (conj eq_refl H3)).
Qed.
Lemma match_here_spec s w b t : match_here s = Some (w, b, t) <-> word w /\ free_of [c_close; c_newline] b /\ s = (w ++ c_open :: b ++ c_close :: t)%list.
Proof.
  unfold match_here. pose proof (take_word_spec s) as HS. split.
  - destruct (take_word s) as [w' t']. destruct HS as (-> & HW & _). destruct w' as [|x w']; [discriminate|]. destruct t' as [|c r]; [discriminate|].
    destruct (Ascii.eqb_spec c c_open) as [->|]; [|discriminate]. destruct (take_until_close r) as [[b' t'']|] eqn:E; [|discriminate].
    intros [= <- <- <-]. apply take_close_spec in E. destruct E as [-> F]. split; [split; [discriminate|exact HW]|]. auto.
  - intros ([N HW] & F & ->). rewrite take_word_app; [|exact HW|intros c r [= <- _]; reflexivity].
    destruct w as [|x w]; [congruence|]. rewrite Ascii.eqb_refl.
    rewrite (proj2 (take_close_spec _ _ _) (conj eq_refl F)). reflexivity.
Qed.
Lemma match_here_shorter s w b t : match_here s = Some (w, b, t) -> (List.length t < List.length s)%nat.
Proof.
  intro H. apply match_here_spec in H. destruct H as (_ & _ & ->). rewrite app_length. cbn. rewrite app_length. cbn. lia.
Qed.
Lemma findall_fuel n : forall m s, (List.length s < n)%nat -> (List.length s < m)%nat -> findall_from n s = findall_from m s.
Proof.
  induction n as [|n IH]; intros [|m] s Hn Hm; try lia. cbn [findall_from].
  destruct (match_here s) as [[[w b] t]|] eqn:E.
  - f_equal. apply match_here_shorter in E. apply IH; lia.
  - destruct s as [|c s]; [reflexivity|]. cbn in Hn, Hm. apply IH; lia.
Qed.
Lemma findall_match s w b t : match_here s = Some (w, b, t) -> findall s = (w, b) :: findall t.
Proof.
  intro H. unfold findall at 1. cbn [findall_from]. rewrite H. f_equal. pose proof (match_here_shorter _ _ _ _ H). unfold findall. apply findall_fuel; lia.
Qed.
Lemma findall_skip c s : match_here (c :: s) = None -> findall (c :: s) = findall s.
Proof. intro H. unfold findall at 1. cbn [findall_from]. rewrite H. reflexivity. Qed.
Lemma match_nonword c s : is_word c = false -> match_here (c :: s) = None.
Proof. intro H. unfold match_here. cbn. rewrite H. reflexivity. Qed.
Lemma findall_gap sep s : Forall (fun c => is_word c = false) sep -> findall (sep ++ s) = findall s.
Proof.
  induction 1 as [|c sep Hc _ IH]; cbn [app]; [reflexivity|]. rewrite findall_skip; [exact IH|apply match_nonword; exact Hc].
Qed.
Lemma findall_sound_aux n : forall s w b, In (w, b) (findall_from n s) ->
  exists pre post, s = (pre ++ w ++ c_open :: b ++ c_close :: post)%list /\ word w /\ free_of [c_close; c_newline] b.
Proof.
  induction n as [|n IH]; intros s w b; cbn [findall_from]; [intros []|]. destruct (match_here s) as [[[w0 b0] t]|] eqn:E.
  - pose proof (proj1 (match_here_spec _ _ _ _) E) as (HW & HF & Es). intros [[= <- <-]|H].
    + exists [], t. auto.
    + destruct (IH _ _ _ H) as (pre & post & -> & H1 & H2). exists (w0 ++ c_open :: b0 ++ c_close :: pre)%list, post.
      rewrite Es, <- !app_assoc. cbn. rewrite <- !app_assoc. auto.
  - destruct s as [|c s]; [intros []|]. intro H. destruct (IH _ _ _ H) as (pre & post & -> & H1 & H2). exists (c :: pre), post. auto.
Qed.

(* ---------------- C39 ---------------- *)
(** The text box reads back what was written: for calls Name(key=value, ...) separated by any non-empty text without word
    characters, the result holds for each name the settings of the last call with that name whose values are all numbers
    (keys stripped of blanks, the last of two equal keys winning); a call with any value that is not a number leaves no
    trace. Text before the first call and after the last one may be anything without word characters. *)
Definition settings {V} (d : list (text * V)) : list (text * V) := fold_left (fun acc kv => dict_put acc (strip (fst kv)) (snd kv)) d [].
Definition gaps_ok (gap : text) : Prop := Forall (fun c => is_word c = false) gap.
Fixpoint render (calls : list (text * list (text * text) * text)) : text :=
  match calls with
  | [] => []
  | (name, kvs, gap) :: r => (call_text name (sep_by [c_comma] (map kwarg kvs)) ++ gap ++ render r)%list
  end.
Definition call_ok (c : text * list (text * text) * text) : Prop :=
  let '(name, kvs, gap) := c in
  word name /\ kvs <> [] /\ Forall (fun kv => plain_key (fst kv) /\ plain_value (snd kv)) kvs /\ gaps_ok gap.

Lemma free_not_in cs s c : free_of cs s -> In c cs -> ~ In c s.
Proof. intros F H X. unfold free_of in F. rewrite Forall_forall in F. exact (F _ X H). Qed.
Lemma free_app cs a b : free_of cs a -> free_of cs b -> free_of cs (a ++ b).
Proof. intros A B. apply Forall_app. auto. Qed.
Lemma body_free kvs : Forall (fun kv => plain_key (fst kv) /\ plain_value (snd kv)) kvs -> free_of [c_close; c_newline] (sep_by [c_comma] (map kwarg kvs)).
Proof.
  assert (K : forall kv, plain_key (fst kv) /\ plain_value (snd kv) -> free_of [c_close; c_newline] (kwarg kv)).
  { intros [k v] [A B]. unfold kwarg. cbn [fst snd] in *. apply Forall_app. split.
    - eapply Forall_impl; [|exact A]. cbn. tauto.
    - constructor; [cbn; intros [H|[H|[]]]; discriminate|]. eapply Forall_impl; [|exact B]. cbn. tauto. }
  induction 1 as [|kv kvs H HF IH]; cbn [map sep_by]; [constructor|]. destruct kvs as [|kv' kvs]; [apply K; exact H|].
  cbn [map] in *. apply Forall_app. split; [apply K; exact H|]. cbn [app]. constructor; [cbn; intros [X|[X|[]]]; discriminate|]. exact IH.
Qed.
Lemma render_findall pre calls : gaps_ok pre -> Forall call_ok calls ->
  findall (pre ++ render calls) = map (fun c => (fst (fst c), sep_by [c_comma] (map kwarg (snd (fst c))))) calls.
Proof.
  intros HP HC. rewrite findall_gap by exact HP. clear pre HP.
  induction HC as [|[[name kvs] gap] calls (HW & HN & HF & HG) _ IH]; cbn [render map fst snd]; [reflexivity|].
  rewrite (findall_match _ name (sep_by [c_comma] (map kwarg kvs)) (gap ++ render calls)).
  - f_equal. rewrite findall_gap by exact HG. exact IH.
  - apply match_here_spec. split; [exact HW|]. split; [apply body_free; exact HF|]. unfold call_text. rewrite <- app_assoc. cbn. rewrite <- app_assoc. reflexivity.
Qed.
Lemma parse_args_render {V} (float : text -> option V) kvs : Forall (fun kv => plain_key (fst kv) /\ plain_value (snd kv)) kvs ->
  forall acc, parse_args float (map kwarg kvs) acc =
    match all_floats float kvs with Some d => Ok (fold_left (fun acc kv => dict_put acc (strip (fst kv)) (snd kv)) d acc) | None => Err ValueError end.
Proof.
  induction 1 as [|[k v] kvs [HK HV] _ IH]; intro acc; cbn [map parse_args all_floats]; [reflexivity|].
  unfold kwarg. cbn [fst snd] in *. rewrite split_app by (eapply free_not_in; [exact HK|cbn; auto]).
  rewrite split_free by (eapply free_not_in; [exact HV|cbn; auto]).
  destruct (float v) as [x|]; [|reflexivity]. rewrite IH. destruct (all_floats float kvs) as [d|]; reflexivity.
Qed.
Theorem C39_reads_back : forall V (float : text -> option V) pre calls, gaps_ok pre -> Forall call_ok calls ->
  forall name, dict_find (process_extra float (pre ++ render calls)) name =
    fold_left (fun found c => if text_eqb name (fst (fst c))
                              then match all_floats float (snd (fst c)) with Some d => Some (settings d) | None => found end
                              else found) calls None.
Proof.
  intros V float pre calls HP HC name. unfold process_extra. rewrite (render_findall pre calls HP HC). clear pre HP.
  assert (G : forall calls acc, Forall call_ok calls ->
    dict_find (fold_left (fun result m => match parse_args float (split_on c_comma (snd m)) [] with Ok d => dict_put result (fst m) d | Err _ => result end)
      (map (fun c : text * list (text * text) * text => (fst (fst c), sep_by [c_comma] (map kwarg (snd (fst c))))) calls) acc) name =
    fold_left (fun found c => if text_eqb name (fst (fst c))
                              then match all_floats float (snd (fst c)) with Some d => Some (settings d) | None => found end
                              else found) calls (dict_find acc name)).
  { clear calls HC. induction calls as [|[[n kvs] gap] calls IH]; intros acc H; cbn [map fold_left fst snd]; [reflexivity|].
    inversion H as [|? ? H0 H']; subst. destruct H0 as (HW & HN & HF & HG). rewrite IH by exact H'. f_equal.
    rewrite split_sep_by.
    - rewrite (parse_args_render float kvs HF). destruct (all_floats float kvs) as [d|].
      + rewrite find_put. reflexivity.
      + destruct (text_eqb name n); reflexivity.
    - destruct kvs; [congruence|discriminate].
    - apply Forall_map. eapply Forall_impl; [|exact HF]. intros [k v] [A B]. unfold kwarg. cbn [fst snd] in *.
      rewrite in_app_iff. intros [X|[X|X]]; [|discriminate|].
      + revert X. eapply free_not_in; [exact A|cbn; auto].
      + revert X. eapply free_not_in; [exact B|cbn; auto]. }
  exact (G calls [] HC).
Qed.

(** For any text at all: whatever is reported for a name was written in the text as Name(...), and each comma-separated
    piece inside those parentheses is key=number. *)
Theorem C39_sound : forall V (float : text -> option V) input name d, dict_find (process_extra float input) name = Some d ->
  exists pre post body, input = (pre ++ call_text name body ++ post)%list /\ word name /\
    exists kvs, body = sep_by [c_comma] (map kwarg kvs) /\ (exists xs, all_floats float kvs = Some xs /\ d = settings xs).
Proof.
  intros V float input name d. unfold process_extra.
  assert (G : forall ms acc, (forall w b, In (w, b) ms -> In (w, b) (findall input)) ->
    (forall x, dict_find acc name = Some x -> exists b, In (name, b) (findall input) /\ parse_args float (split_on c_comma b) [] = Ok x) ->
    dict_find (fold_left (fun result m => match parse_args float (split_on c_comma (snd m)) [] with Ok d => dict_put result (fst m) d | Err _ => result end) ms acc) name = Some d ->
    exists b, In (name, b) (findall input) /\ parse_args float (split_on c_comma b) [] = Ok d).
  { induction ms as [|[w b] ms IH]; intros acc HI HA; cbn [fold_left fst snd]; [apply HA|]. apply IH; [intros; apply HI; right; assumption|].
    intro x. destruct (parse_args float (split_on c_comma b) []) as [y|e] eqn:E; [|apply HA]. rewrite find_put.
    destruct (text_eqb name w) eqn:Ew; [|apply HA]. intros [= ->]. apply text_eqb_spec in Ew. subst w. exists b. split; [apply HI; left; reflexivity|exact E]. }
  intro H. apply G in H; [|auto|discriminate]. destruct H as (b & HB & HP).
  destruct (findall_sound_aux _ _ _ _ HB) as (pre & post & -> & HW & HF). exists pre, post, b. split; [|split; [exact HW|]].
  { f_equal. unfold call_text. rewrite <- app_assoc. cbn. rewrite <- app_assoc. reflexivity. }
  rewrite <- (split_join c_comma b). revert HP. generalize (split_on c_comma b). intro l. clear.
  assert (L : forall l acc d, parse_args float l acc = Ok d -> exists kvs, l = map kwarg kvs /\ exists xs, all_floats float kvs = Some xs /\ d = fold_left (fun acc kv => dict_put acc (strip (fst kv)) (snd kv)) xs acc).
  { clear. induction l as [|a l IH]; intros acc d; cbn [parse_args].
    - intros [= <-]. exists []. split; [reflexivity|]. exists []. auto.
    - pose proof (split_join c_equal a) as J. destruct (split_on c_equal a) as [|k [|v [|? ?]]]; try discriminate.
      destruct (float v) as [x|] eqn:E; [|discriminate]. intro H. destruct (IH _ _ H) as (kvs & -> & xs & A & B).
      exists ((k, v) :: kvs). split; [cbn in *; unfold kwarg at 1; cbn; rewrite <- J; reflexivity|]. exists ((k, x) :: xs).
      cbn [all_floats]. rewrite E, A. auto. }
  intro H. destruct (L l [] d H) as (kvs & -> & xs & A & B). exists kvs. split; [reflexivity|]. exists xs. auto.
Qed.

(** Examples: the two documented forms, blanks around the keys, a broken entry, a repeated one. *)
Definition digit_value (s : text) : option nat :=
  match s with [c] => if (48 <=? code c) && (code c <=? 57) then Some (code c - 48)%nat else None | _ => None end.
Definition T (s : string) : text := list_ascii_of_string s.
Example C39_reads_example :
  process_extra digit_value (T "StudentT(nu=3),  Normal(mu=3, sigma =4); Beta(a=x,b=2) StudentT(nu=5)") =
  [(T "StudentT", [(T "nu", 5%nat)]); (T "Normal", [(T "mu", 3%nat); (T "sigma", 4%nat)])].
Proof. vm_compute. reflexivity. Qed.
Example C39_applies : Forall call_ok [(T "Normal", [(T "mu", T "3"); (T " sigma ", T "4")], T ", "); (T "Beta", [(T "a", T "x")], [])].
Proof.
  unfold call_ok, word, plain_key, plain_value, free_of, gaps_ok.
  repeat first [apply Forall_cons | apply Forall_nil | split | discriminate | reflexivity
    | (cbn; intros [X|[X|[X|[X|[]]]]]; discriminate)].
Qed.
Print Assumptions C39_reads_back.
Print Assumptions C39_sound.
