(** Property theorems for projections and generated model code: C40, C41. *)
From Coq Require Import List Bool Ascii String Arith Lia.
From Verif Require Import Base TextModel PplModel.
Import ListNotations.

(* ---------------- C40 ---------------- *)
(** Row [i] of an array whose rows have [size] elements. *)
Definition row_of {A} (size i : nat) (data : list A) : list A := firstn size (skipn (i * size) data).

Lemma slice_length {A} from len (row : list A) : (from + len <= List.length row)%nat -> List.length (slice from len row) = len.
Proof. intro H. unfold slice. rewrite firstn_length, skipn_length. lia. Qed.
Lemma concat_rows {A} size : forall (rows : list (list A)) i r, Forall (fun r => List.length r = size) rows -> nth_error rows i = Some r ->
  row_of size i (List.concat rows) = r.
Proof.
  intros rows. induction rows as [|r0 rows IH]; intros [|i] r HF E; cbn in E; try discriminate; inversion HF; subst.
  - injection E as ->. unfold row_of. cbn. rewrite firstn_app, firstn_all, Nat.sub_diag. cbn. apply app_nil_r.
  - unfold row_of. cbn [List.concat]. replace (S i * List.length r0)%nat with (List.length r0 + i * List.length r0)%nat by lia.
    rewrite skipn_app, skipn_all2 by lia. cbn [app]. replace (List.length r0 + i * List.length r0 - List.length r0)%nat with (i * List.length r0)%nat by lia.
    apply IH; assumption.
Qed.
Lemma concat_length_const {A} size (rows : list (list A)) : Forall (fun r => List.length r = size) rows -> List.length (List.concat rows) = (List.length rows * size)%nat.
Proof. induction 1 as [|r rows H _ IH]; cbn; [reflexivity|]. rewrite app_length. lia. Qed.

(** Each row of the flat array is cut into consecutive blocks, one per variable in order, each of the variable's size and
    shape (dimensions of length one dropped). Cutting loses nothing and repeats nothing: the blocks of a row, put end to
    end, are that row. *)
Theorem C40_blocks : forall A (prior : list (list A)) (var_info : list (text * vinfo A)),
  Forall (fun v => v_size (snd v) = prod (v_shape (snd v)) /\ v_transf (snd v) = None) var_info ->
  Forall (fun row => List.length row = list_sum (map (fun v => v_size (snd v)) var_info)) prior ->
  exists out, unravel_projection prior var_info (List.length prior) = Ok out /\
    map fst out = map fst var_info /\
    Forall2 (fun v x => List.length (nd_data (snd x)) = (List.length prior * v_size (snd v))%nat /\
                        nd_shape (snd x) = filter (fun d => negb (Nat.eqb d 1)) (List.length prior :: v_shape (snd v))) var_info out /\
    forall i row, nth_error prior i = Some row ->
      List.concat (map (fun vx => row_of (v_size (snd (fst vx))) i (nd_data (snd (snd vx)))) (combine var_info out)) = row.
Proof.
  intros A prior var_info HV HP. unfold unravel_projection.
  assert (G : forall vs from, Forall (fun v => v_size (snd v) = prod (v_shape (snd v)) /\ v_transf (snd v) = None) vs ->
    Forall (fun row => (from + list_sum (map (fun v : text * vinfo A => v_size (snd v)) vs) <= List.length row)%nat) prior ->
    exists out, unravel_loop prior vs (List.length prior) from = Ok out /\ map fst out = map fst vs /\
      Forall2 (fun v x => List.length (nd_data (snd x)) = (List.length prior * v_size (snd v))%nat /\
                        nd_shape (snd x) = filter (fun d => negb (Nat.eqb d 1)) (List.length prior :: v_shape (snd v))) vs out /\
      forall i row, nth_error prior i = Some row ->
        List.concat (map (fun vx => row_of (v_size (snd (fst vx))) i (nd_data (snd (snd vx)))) (combine vs out)) =
        slice from (list_sum (map (fun v : text * vinfo A => v_size (snd v)) vs)) row).
  { induction vs as [|[key v] vs IH]; intros from Hv Hp.
    - exists []. split; [reflexivity|]. split; [reflexivity|]. split; [constructor|]. intros i row _. reflexivity.
    - inversion Hv as [|? ? [Hs Ht] Hv']; subst. cbn [fst snd] in *.
      assert (L : Forall (fun r => List.length r = v_size v) (map (slice from (v_size v)) prior)).
      { apply Forall_map. eapply Forall_impl; [|exact Hp]. intros row Hr. apply slice_length. cbn in Hr. lia. }
      destruct (IH (from + v_size v)%nat Hv') as (out & E & K & F & R).
      { eapply Forall_impl; [|exact Hp]. intros row Hr. cbn [map snd] in Hr.
        change (list_sum (v_size v :: map (fun v : text * vinfo A => v_size (snd v)) vs)) with (v_size v + list_sum (map (fun v : text * vinfo A => v_size (snd v)) vs))%nat in Hr. lia. }
      assert (RS : reshape (map (slice from (v_size v)) prior) (List.length prior :: v_shape v) =
        Ok (mkNd (filter (fun d => negb (Nat.eqb d 1)) (List.length prior :: v_shape v)) (List.concat (map (slice from (v_size v)) prior)))).
      { unfold reshape. rewrite (concat_length_const (v_size v)) by exact L. rewrite map_length.
        replace (prod (List.length prior :: v_shape v)) with (List.length prior * v_size v)%nat by (rewrite Hs; reflexivity). rewrite Nat.eqb_refl. reflexivity. }
      eexists. cbn [unravel_loop]. rewrite Ht, RS. cbn [bind]. rewrite E. cbn [bind]. split; [reflexivity|].
      split; [cbn; rewrite K; reflexivity|]. split.
      + constructor; [|exact F]. cbn [snd nd_data nd_shape]. split; [|reflexivity].
        rewrite (concat_length_const (v_size v)) by exact L. rewrite map_length. reflexivity.
      + intros i row Hi. cbn [combine map fst snd nd_data List.concat]. rewrite (R i row Hi).
        rewrite (concat_rows (v_size v) _ i (slice from (v_size v) row) L) by (rewrite nth_error_map, Hi; reflexivity).
        change (list_sum (v_size v :: map (fun v : text * vinfo A => v_size (snd v)) vs)) with (v_size v + list_sum (map (fun v : text * vinfo A => v_size (snd v)) vs))%nat.
        unfold slice. set (t := list_sum _). clearbody t.
        rewrite <- (firstn_skipn (v_size v) (firstn (v_size v + t) (skipn from row))). f_equal.
        * rewrite firstn_firstn. f_equal. lia.
        * rewrite skipn_firstn_comm. replace (v_size v + t - v_size v)%nat with t by lia. f_equal.
          clear. revert row. induction from as [|n IH]; intros [|x row]; cbn; try reflexivity; [destruct (v_size v); reflexivity|apply IH]. }
  destruct (G var_info 0%nat HV) as (out & E & K & F & R).
  { eapply Forall_impl; [|exact HP]. cbn. lia. }
  exists out. split; [exact E|]. split; [exact K|]. split; [exact F|]. intros i row Hi. rewrite (R i row Hi).
  unfold slice. cbn [skipn]. apply firstn_all2. rewrite Forall_forall in HP. rewrite (HP row); [lia|]. eapply nth_error_In; eauto.
Qed.
Example C40_applies : unravel_projection [[1; 2; 3; 4; 5; 6; 7]; [11; 12; 13; 14; 15; 16; 17]]%nat
    [(txt "a", mkVinfo [] 1 None []); (txt "b", mkVinfo [2; 2] 4 None []); (txt "c", mkVinfo [2] 2 None [])]%nat 2 =
  Ok [(txt "a", mkNd [2] [1; 11]); (txt "b", mkNd [2; 2; 2] [2; 3; 4; 5; 12; 13; 14; 15]); (txt "c", mkNd [2; 2] [6; 7; 16; 17])]%nat.
Proof. reflexivity. Qed.

(** A transformation is applied to the whole block of its own variable and to nothing else. *)
Theorem C40_transformed : forall A (prior : list (list A)) before key v after out,
  Forall (fun row => List.length row = list_sum (map (fun v : text * vinfo A => v_size (snd v)) (before ++ (key, v) :: after))) prior ->
  unravel_projection prior (before ++ (key, v) :: after) (List.length prior) = Ok out ->
  exists x, nth_error out (List.length before) = Some (key, x) /\
    nd_data x = List.concat ((match v_transf v with Some f => f | None => fun rows => rows end)
      (map (fun row => firstn (v_size v) (skipn (list_sum (map (fun v : text * vinfo A => v_size (snd v)) before)) row)) prior)).
Proof.
  intros A prior before key v after out _. unfold unravel_projection.
  assert (G : forall before from out, unravel_loop prior (before ++ (key, v) :: after) (List.length prior) from = Ok out ->
    exists x, nth_error out (List.length before) = Some (key, x) /\
    nd_data x = List.concat ((match v_transf v with Some f => f | None => fun rows => rows end)
      (map (fun row => firstn (v_size v) (skipn (from + list_sum (map (fun v : text * vinfo A => v_size (snd v)) before)) row)) prior))).
  { clear. induction before as [|[k w] before IH]; intros from out; cbn [app unravel_loop List.length].
    - intro E. unfold reshape in E. destruct (Nat.eqb _ _); cbn [bind] in E; [|discriminate].
      destruct (unravel_loop prior after (List.length prior) (from + v_size v)) as [o|] eqn:Eo; cbn [bind] in E; [|discriminate].
      injection E as <-. eexists. split; [reflexivity|]. cbn [nd_data map list_sum fold_right]. rewrite Nat.add_0_r. destruct (v_transf v); reflexivity.
    - destruct (reshape _ _) as [x|]; cbn [bind]; [|discriminate].
      destruct (unravel_loop prior (before ++ (key, v) :: after) (List.length prior) (from + v_size w)) as [o|] eqn:Eo; cbn [bind]; [|discriminate].
      intros [= <-]. destruct (IH _ _ Eo) as (y & N & D). exists y. split; [exact N|]. rewrite D. do 2 f_equal. cbn [map snd list_sum fold_right].
      fold (list_sum (map (fun v : text * vinfo A => v_size (snd v)) before)). apply map_ext. intro row. rewrite Nat.add_assoc. reflexivity. }
  intro E. exact (G before 0%nat out E).
Qed.
Example C40_transformed_applies : unravel_projection [[1; 2; 3]; [4; 5; 6]]%nat
    [(txt "a", mkVinfo [] 1 None []); (txt "b", mkVinfo [2] 2 (Some (map (map S))) [])]%nat 2 =
  Ok [(txt "a", mkNd [2] [1; 4]); (txt "b", mkNd [2; 2] [3; 4; 6; 7])]%nat.
Proof. reflexivity. Qed.

(* ---------------- C41 ---------------- *)
(** The line a reader expects for a variable, for the text Name(params) of its distribution. *)
Definition expected_line (show : nat -> text) (key name params : text) (size : nat) : text :=
  (txt "    " ++ key ++ txt " = pm." ++ name ++ txt "(" ++ quote ++ key ++ quote ++ txt ", " ++ params ++
   (if Nat.ltb 1 size then txt ", shape=" ++ show size else []) ++ txt ")" ++ nl)%list.
Definition well_written {D} (repr : D -> text) (d : D) (name params : text) : Prop :=
  repr d = (name ++ c_open :: params ++ [c_close])%list /\ ~ In c_open name /\ ~ In c_open params /\ ~ In c_close params.
Definition line_for {D} (repr : D -> text) (show : nat -> text) (key : text) (d : D) (size : nat) (line : text) : Prop :=
  exists name params, well_written repr d name params /\ line = expected_line show key name params size.

Lemma split_open_two {D} (repr : D -> text) d name params : well_written repr d name params -> name_params repr d = Ok (name, (params ++ [c_close])%list).
Proof.
  intros (E & H1 & H2 & H3). unfold name_params. rewrite E.
  assert (S2 : split_on c_open (params ++ [c_close]) = [(params ++ [c_close])%list]).
  { clear - H2. induction params as [|c p IH]; cbn; [reflexivity|]. destruct (Ascii.eqb_spec c c_open) as [->|]; [exfalso; apply H2; left; reflexivity|].
    rewrite IH by (intro X; apply H2; right; exact X). reflexivity. }
  clear E. induction name as [|c n IH]; cbn [app split_on].
  - rewrite Ascii.eqb_refl, S2. reflexivity.
  - destruct (Ascii.eqb_spec c c_open) as [->|]; [exfalso; apply H1; left; reflexivity|].
    assert (Hn : ~ In c_open n) by (intro X; apply H1; right; exact X). specialize (IH Hn).
    destruct (split_on c_open (n ++ c_open :: params ++ [c_close])) as [|a [|b [|? ?]]]; try discriminate IH. injection IH as -> ->. reflexivity.
Qed.
Lemma split_close_hd params : ~ In c_close params -> hd [] (split_on c_close (params ++ [c_close])) = params.
Proof.
  induction params as [|c p IH]; intro H; [reflexivity|]. cbn [app split_on].
  destruct (Ascii.eqb_spec c c_close) as [->|]; [exfalso; apply H; left; reflexivity|].
  assert (Hp : ~ In c_close p) by (intro X; apply H; right; exact X). specialize (IH Hp).
  destruct (split_on c_close (p ++ [c_close])) as [|a l]; cbn in *; [destruct p; [reflexivity|discriminate]|congruence].
Qed.
Lemma pymc_line_expected {D} (repr : D -> text) show key d size name params : well_written repr d name params ->
  pymc_line repr show key d size = Ok (expected_line show key name params size).
Proof.
  intro W. unfold pymc_line. rewrite (split_open_two repr d name params W). cbn [bind]. destruct W as (_ & _ & _ & H3).
  unfold expected_line. destruct (Nat.ltb 1 size).
  - rewrite split_close_hd by exact H3. repeat rewrite <- app_assoc. reflexivity.
  - repeat rewrite <- app_assoc. reflexivity.
Qed.
Lemma list_set_some l i x l' : list_set l i x = Ok l' -> List.length l' = List.length l /\ (forall j, nth_error l' j = if Nat.eqb j i then Some x else nth_error l j).
Proof.
  revert i l'. induction l as [|y l IH]; intros [|i] l'; cbn [list_set]; try discriminate.
  - intros [= <-]. split; [reflexivity|]. intros [|j]; reflexivity.
  - destruct (list_set l i x) as [r|] eqn:E; cbn [bind]; [|discriminate]. intros [= <-]. destruct (IH _ _ E) as [L N]. split; [cbn; lia|].
    intros [|j]; cbn; [reflexivity|apply N].
Qed.
Lemma list_set_ok l i x : (i < List.length l)%nat -> exists l', list_set l i x = Ok l'.
Proof.
  revert i. induction l as [|y l IH]; intros [|i]; cbn; intro H; try lia; [eauto|]. destruct (IH i) as [r E]; [lia|]. rewrite E. cbn. eauto.
Qed.

(** Top-level variables first, hierarchical ones after them with parents among the first: one line per top-level
    variable, in order, with the distribution the last hierarchical variable naming it asked for, or its own fit. *)
Definition final_dist {D} (refit : D -> D -> res D) (children : list (prior D)) (i : nat) (own : D) (d : D) : Prop :=
  (d = own /\ Forall (fun c => ~ In i (p_parents c)) children) \/
  exists before c after, children = (before ++ c :: after)%list /\ In i (p_parents c) /\ Forall (fun c => ~ In i (p_parents c)) after /\ refit own (p_dist c) = Ok d.

Definition final_line {D} (refit : D -> D -> res D) (LO LP : text -> D -> nat -> text -> Prop) (children : list (prior D)) (i : nat) (p : prior D) (line : text) : Prop :=
  (LO (p_key p) (p_dist p) (p_size p) line /\ Forall (fun c => ~ In i (p_parents c)) children) \/
  exists before c after d, children = (before ++ c :: after)%list /\ In i (p_parents c) /\ Forall (fun c => ~ In i (p_parents c)) after /\
    refit (p_dist p) (p_dist c) = Ok d /\ LP (p_key p) d (p_size p) line.
Lemma write_loop_lines D (refit : D -> D -> res D) (own par : text -> D -> nat -> res text) (LO LP : text -> D -> nat -> text -> Prop) (roots children : list (prior D)) :
  (forall key d size, exists line, own key d size = Ok line /\ LO key d size line) ->
  (forall key d size, exists line, par key d size = Ok line /\ LP key d size line) ->
  Forall (fun p => p_parents p = []) roots ->
  Forall (fun c => p_parents c <> [] /\ Forall (fun i => (i < List.length roots)%nat) (p_parents c)) children ->
  (forall p c, In p roots -> In c children -> exists d, refit (p_dist p) (p_dist c) = Ok d) ->
  exists lines, write_loop refit own par (roots ++ children) (roots ++ children) [] = Ok lines /\ List.length lines = List.length roots /\
    forall i p line, nth_error roots i = Some p -> nth_error lines i = Some line -> final_line refit LO LP children i p line.
Proof.
  intros OWN PAR HR HC HF.
  (* the top-level variables *)
  assert (S1 : forall rs items vars, Forall (fun p => p_parents p = []) rs ->
    exists ls, write_loop refit own par (roots ++ children) (rs ++ items) vars = write_loop refit own par (roots ++ children) items (vars ++ ls) /\
      Forall2 (fun p line => LO (p_key p) (p_dist p) (p_size p) line) rs ls).
  { induction rs as [|p rs IH]; intros items vars H.
    - exists []. rewrite app_nil_r. split; [reflexivity|constructor].
    - inversion H; subst. cbn [app write_loop]. rewrite H2. destruct (OWN (p_key p) (p_dist p) (p_size p)) as (line & E & L). rewrite E. cbn [bind].
      destruct (IH items (vars ++ [line])%list H3) as (ls & E2 & F). exists (line :: ls). rewrite E2, <- app_assoc. split; [reflexivity|]. constructor; assumption. }
  (* the parents of one hierarchical variable *)
  set (good := fun (done : list (prior D)) (vars : list text) => List.length vars = List.length roots /\
    forall i p line, nth_error roots i = Some p -> nth_error vars i = Some line -> final_line refit LO LP done i p line).
  assert (S2 : forall c vars, In c children -> List.length vars = List.length roots -> Forall (fun i => (i < List.length roots)%nat) (p_parents c) ->
    exists vars', parent_loop refit par (roots ++ children) (p_dist c) (p_parents c) vars = Ok vars' /\ List.length vars' = List.length roots /\
      forall i p line, nth_error roots i = Some p -> nth_error vars' i = Some line ->
        (In i (p_parents c) /\ exists d, refit (p_dist p) (p_dist c) = Ok d /\ LP (p_key p) d (p_size p) line) \/
        (~ In i (p_parents c) /\ nth_error vars i = Some line)).
  { intros c vars Hc. generalize (p_parents c) as idxs. intro idxs. revert vars. induction idxs as [|j idxs IH]; intros vars HL HI.
    - exists vars. split; [reflexivity|]. split; [exact HL|]. intros i p line _ N. right. split; [intros []|exact N].
    - inversion HI; subst. cbn [parent_loop]. rewrite nth_error_app1 by assumption.
      destruct (nth_error roots j) as [p|] eqn:Ej; [|apply nth_error_None in Ej; lia].
      destruct (HF p c (nth_error_In _ _ Ej) Hc) as (d & Ed). rewrite Ed. cbn [bind].
      destruct (PAR (p_key p) d (p_size p)) as (line & El & Ll). rewrite El. cbn [bind].
      destruct (list_set_ok vars j line) as (vars1 & Es); [lia|]. rewrite Es. cbn [bind]. apply list_set_some in Es. destruct Es as [L1 N1].
      destruct (IH vars1) as (vars' & E' & L' & N'); [lia|assumption|]. exists vars'. split; [exact E'|]. split; [exact L'|].
      intros i q line' Hq Hl. destruct (N' i q line' Hq Hl) as [[Hin X]|[Hnin X]].
      + left. split; [right; exact Hin|exact X].
      + rewrite N1 in X. destruct (Nat.eqb_spec i j) as [->|Hij].
        * left. split; [left; reflexivity|]. injection X as <-. rewrite Ej in Hq. injection Hq as <-. eauto.
        * right. split; [|exact X]. intros [->|Hin]; [congruence|contradiction]. }
  assert (S3 : forall todo done vars, children = (done ++ todo)%list -> good done vars ->
    exists vars', write_loop refit own par (roots ++ children) todo vars = Ok vars' /\ good children vars').
  { induction todo as [|c todo IH]; intros done vars Hd [HL HG].
    - exists vars. split; [reflexivity|]. rewrite app_nil_r in Hd. subst done. split; assumption.
    - assert (Hc : In c children) by (rewrite Hd, in_app_iff; right; left; reflexivity).
      assert (Hcc := HC). rewrite Forall_forall in Hcc. destruct (Hcc c Hc) as [Hne Hlt]. cbn [write_loop].
      destruct (S2 c vars Hc HL Hlt) as (vars1 & E1 & L1 & N1).
      assert (R : (match p_parents c with [] => do line <- own (p_key c) (p_dist c) (p_size c); write_loop refit own par (roots ++ children) todo (vars ++ [line])
                   | _ :: _ => do v <- parent_loop refit par (roots ++ children) (p_dist c) (p_parents c) vars; write_loop refit own par (roots ++ children) todo v end)
                  = write_loop refit own par (roots ++ children) todo vars1).
      { rewrite E1. cbn [bind]. destruct (p_parents c); [congruence|reflexivity]. }
      destruct (IH (done ++ [c])%list vars1) as (vars' & E' & G'); [rewrite <- app_assoc; exact Hd| |].
      + split; [exact L1|]. intros i p line Hp Hl. destruct (N1 i p line Hp Hl) as [[Hin (d & Ed & Ld)]|[Hnin Hold]].
        * right. exists done, c, [], d. split; [reflexivity|]. split; [exact Hin|]. split; [constructor|]. split; assumption.
        * destruct (HG i p line Hp Hold) as [[Ld Fn]|(b & x & a & d & -> & X1 & X2 & X3 & X4)].
          -- left. split; [exact Ld|]. apply Forall_app. split; [exact Fn|]. constructor; [exact Hnin|constructor].
          -- right. exists b, x, (a ++ [c])%list, d. rewrite <- app_assoc. split; [reflexivity|]. split; [exact X1|]. split; [|split; assumption].
             apply Forall_app. split; [exact X2|]. constructor; [exact Hnin|constructor].
      + exists vars'. split; [|exact G']. rewrite <- E', <- R. destruct (p_parents c); reflexivity. }
  destruct (S1 roots children [] HR) as (ls & E1 & F1). rewrite E1. cbn [app].
  destruct (S3 children [] ls eq_refl) as (vars' & E' & G1 & G2).
  - split; [clear - F1; induction F1; cbn; congruence|]. intros i p line Hp Hl. left. split; [|constructor].
    clear - F1 Hp Hl. revert i Hp Hl. induction F1 as [|a b l l' H _ IH]; intros [|i] Hp Hl; cbn in *; try discriminate; [congruence|eauto].
  - exists vars'. auto.
Qed.
Theorem C41_one_line_each : forall D (repr : D -> text) (refit : D -> D -> res D) (show : nat -> text) (roots children : list (prior D)),
  Forall (fun p => p_parents p = []) roots ->
  Forall (fun c => p_parents c <> [] /\ Forall (fun i => (i < List.length roots)%nat) (p_parents c)) children ->
  (forall d, exists name params, well_written repr d name params) ->
  (forall p c, In p roots -> In c children -> exists d, refit (p_dist p) (p_dist c) = Ok d) ->
  exists lines, write_pymc_string repr refit show (roots ++ children) = Ok (txt "with pm.Model() as model:" ++ nl ++ List.concat lines)%list /\
    List.length lines = List.length roots /\
    forall i p line, nth_error roots i = Some p -> nth_error lines i = Some line ->
      exists d, final_dist refit children i (p_dist p) d /\ line_for repr show (p_key p) d (p_size p) line.
Proof.
  intros D repr refit show roots children HR HC HW HF. unfold write_pymc_string.
  assert (OWN : forall key d size, exists line, pymc_line repr show key d size = Ok line /\ line_for repr show key d size line).
  { intros key d size. destruct (HW d) as (n & p & W). exists (expected_line show key n p size). split; [apply pymc_line_expected; exact W|]. exists n, p. auto. }
  destruct (write_loop_lines D refit _ _ _ _ roots children OWN OWN HR HC HF) as (lines & E & L & N).
  exists lines. rewrite E. cbn [bind]. split; [reflexivity|]. split; [exact L|]. intros i p line Hp Hl.
  destruct (N i p line Hp Hl) as [[Ld F]|(b & c & a & d & E1 & E2 & E3 & E4 & Ld)].
  - exists (p_dist p). split; [left; split; [reflexivity | exact F] | exact Ld].
  - exists d. split; [right; exists b, c, a; auto | exact Ld].
Qed.
(** The line a reader expects for Bambi; the lines of variables that were fitted again close one parenthesis too many. *)
Definition expected_bambi (show : nat -> text) (key name params : text) (size : nat) : text :=
  (quote ++ key ++ quote ++ txt " : bmb.Prior(" ++ quote ++ name ++ quote ++ txt ", " ++ params ++
   (if Nat.ltb 1 size then txt ", shape=" ++ show size else []) ++ txt ")," ++ nl)%list.
Definition bambi_for {D} (repr : D -> text) (show : nat -> text) (ending : text) (key : text) (d : D) (size : nat) (line : text) : Prop :=
  exists name params, well_written repr d name params /\ line = expected_bambi show key name (params ++ ending) size.
Lemma drop_close_none s : ~ In c_close s -> drop_close s = s.
Proof. destruct s as [|c s]; [reflexivity|]. cbn. intro H. destruct (Ascii.eqb_spec c c_close) as [->|]; [exfalso; apply H; left; reflexivity | reflexivity]. Qed.
Lemma bambi_line_expected {D} (repr : D -> text) show stripped key d size name params : well_written repr d name params ->
  bambi_line repr show stripped key d size = Ok (expected_bambi show key name (params ++ if stripped then [] else [c_close]) size).
Proof.
  intro W. unfold bambi_line. rewrite (split_open_two repr d name params W). cbn [bind]. destruct W as (_ & _ & _ & H3).
  unfold expected_bambi. destruct stripped; [|reflexivity]. unfold rstrip_close. rewrite rev_app_distr. cbn [rev app drop_close]. rewrite Ascii.eqb_refl.
  rewrite drop_close_none by (rewrite <- in_rev; exact H3). rewrite rev_involutive, app_nil_r. reflexivity.
Qed.
(** The text for Bambi, for the same variables: one entry per top-level variable, in order. A variable that no hierarchical variable names has its own fit,
    written as Bambi reads it; the others have the fit that the last hierarchical variable naming them asked for, with a parenthesis too many. *)
Theorem C41_bambi_lines : forall D (repr : D -> text) (refit : D -> D -> res D) (show : nat -> text) (roots children : list (prior D)),
  Forall (fun p => p_parents p = []) roots ->
  Forall (fun c => p_parents c <> [] /\ Forall (fun i => (i < List.length roots)%nat) (p_parents c)) children ->
  (forall d, exists name params, well_written repr d name params) ->
  (forall p c, In p roots -> In c children -> exists d, refit (p_dist p) (p_dist c) = Ok d) ->
  exists lines, write_bambi_string repr refit show (roots ++ children) = Ok (txt "{" ++ nl ++ List.concat lines)%list /\
    List.length lines = List.length roots /\
    forall i p line, nth_error roots i = Some p -> nth_error lines i = Some line ->
      (Forall (fun c => ~ In i (p_parents c)) children /\ bambi_for repr show [] (p_key p) (p_dist p) (p_size p) line) \/
      exists before c after d, children = (before ++ c :: after)%list /\ In i (p_parents c) /\ Forall (fun c => ~ In i (p_parents c)) after /\
        refit (p_dist p) (p_dist c) = Ok d /\ bambi_for repr show (txt ")") (p_key p) d (p_size p) line.
Proof.
  intros D repr refit show roots children HR HC HW HF. unfold write_bambi_string.
  assert (OWN : forall key d size, exists line, bambi_line repr show true key d size = Ok line /\ bambi_for repr show [] key d size line).
  { intros key d size. destruct (HW d) as (n & p & W). eexists. split; [apply bambi_line_expected; exact W|]. exists n, p. auto. }
  assert (PAR : forall key d size, exists line, bambi_line repr show false key d size = Ok line /\ bambi_for repr show (txt ")") key d size line).
  { intros key d size. destruct (HW d) as (n & p & W). eexists. split; [apply bambi_line_expected; exact W|]. exists n, p. auto. }
  destruct (write_loop_lines D refit _ _ _ _ roots children OWN PAR HR HC HF) as (lines & E & L & N).
  exists lines. rewrite E. cbn [bind]. split; [reflexivity|]. split; [exact L|]. intros i p line Hp Hl.
  destruct (N i p line Hp Hl) as [[Ld F]|(b & c & a & d & E1 & E2 & E3 & E4 & Ld)]; [left; auto|]. right. exists b, c, a, d. auto.
Qed.
(** A distribution whose text has no parenthesis, or more than one opening one, cannot be written: ValueError. *)
Theorem C41_unwritable : forall D (repr : D -> text) (refit : D -> D -> res D) (show : nat -> text) p ps,
  p_parents p = [] -> count_occ ascii_dec (repr (p_dist p)) c_open <> 1%nat ->
  write_pymc_string repr refit show (p :: ps) = Err ValueError /\ write_bambi_string repr refit show (p :: ps) = Err ValueError.
Proof.
  intros D repr refit show p ps P C.
  assert (Len : forall s, List.length (split_on c_open s) = S (count_occ ascii_dec s c_open)).
  { induction s as [|c s IH]; [reflexivity|]. cbn [split_on count_occ]. destruct (Ascii.eqb_spec c c_open) as [->|Hc].
    - destruct (ascii_dec c_open c_open); [|congruence]. cbn [List.length]. rewrite IH. reflexivity.
    - destruct (ascii_dec c c_open); [congruence|]. destruct (split_on c_open s); cbn [List.length] in *; [discriminate | exact IH]. }
  assert (N : name_params repr (p_dist p) = Err ValueError).
  { unfold name_params. specialize (Len (repr (p_dist p))). destruct (split_on c_open (repr (p_dist p))) as [|a [|b [|? ?]]]; try reflexivity. cbn in Len. exfalso. apply C. lia. }
  unfold write_pymc_string, write_bambi_string. cbn [write_loop]. rewrite P. unfold pymc_line, bambi_line. rewrite N. split; reflexivity.
Qed.
Example C41_unwritable_applies : count_occ ascii_dec (txt "Truncated(Normal(mu=0), 0, 1)") c_open <> 1%nat.
Proof. vm_compute. discriminate. Qed.
(** Without hierarchical variables the code has one line per variable, each with its own fit. *)
Corollary C41_flat_model : forall D (repr : D -> text) (refit : D -> D -> res D) (show : nat -> text) (vars : list (prior D)),
  Forall (fun p => p_parents p = []) vars -> (forall d, exists name params, well_written repr d name params) ->
  exists lines, write_pymc_string repr refit show vars = Ok (txt "with pm.Model() as model:" ++ nl ++ List.concat lines)%list /\
    Forall2 (fun p line => line_for repr show (p_key p) (p_dist p) (p_size p) line) vars lines.
Proof.
  intros D repr refit show vars HR HW. destruct (C41_one_line_each D repr refit show vars [] HR (Forall_nil _) HW) as (lines & E & L & N); [intros ? ? _ []|].
  rewrite app_nil_r in E. exists lines. split; [exact E|]. clear E HR.
  revert lines L N. induction vars as [|p vars IH]; intros [|l lines] L N; cbn in L; try discriminate; constructor.
  - destruct (N 0%nat p l eq_refl eq_refl) as (d & [[-> _]|(b & ? & ? & X & _)] & Ld); [exact Ld|destruct b; discriminate].
  - apply IH; [lia|]. intros i q line Hq Hl. destruct (N (S i) q line Hq Hl) as (d & [[-> _]|(b & ? & ? & X & _)] & Ld); [|destruct b; discriminate].
    exists (p_dist q). split; [left; split; [reflexivity|constructor]|exact Ld].
Qed.
(** Examples: distributions are numbers n written Normal(mu=n). *)
Definition demo_repr (n : nat) : text := (txt "Normal(mu=" ++ [ascii_of_nat (48 + n mod 10)] ++ txt ")")%list.
Definition demo_show (n : nat) : text := [ascii_of_nat (48 + n)].
Definition demo_refit (own child : nat) : res nat := Ok child.
Definition demo_prior (k : string) (n size : nat) (parents : list nat) : prior nat := mkPrior (txt k) n size parents.
Definition lines_of (l : list string) : text := List.concat (map (fun s => (txt s ++ nl)%list) l).
Definition q (s : string) : string := String.append """" (String.append s """").
Example C41_applies : write_pymc_string demo_repr demo_refit demo_show
    [demo_prior "a" 1 1 []; demo_prior "b" 2 3 []; demo_prior "c" 7 1 [1%nat]] =
  Ok (txt "with pm.Model() as model:" ++ nl ++
      (txt "    a = pm.Normal(" ++ quote ++ txt "a" ++ quote ++ txt ", mu=1)" ++ nl) ++
      (txt "    b = pm.Normal(" ++ quote ++ txt "b" ++ quote ++ txt ", mu=7, shape=3)" ++ nl))%list.
Proof. vm_compute. reflexivity. Qed.
Example C41_demo_well_written : forall n, exists name params, well_written demo_repr n name params.
Proof.
  intro n. exists (txt "Normal"), (txt "mu=" ++ [ascii_of_nat (48 + n mod 10)])%list. unfold well_written, demo_repr.
  assert (H : (n mod 10 < 10)%nat) by (apply Nat.mod_upper_bound; discriminate). revert H. generalize (n mod 10). intros m H.
  do 10 (destruct m as [|m]; [split; [vm_compute; reflexivity|]; split; [|split]; vm_compute; intro X; repeat (destruct X as [X|X]; [discriminate X|]); exact X|]). exfalso. lia.
Qed.
(** A top-level variable after a hierarchical one: the positions of the lines no longer agree with the positions of the
    variables. Either the line of another variable is overwritten and that variable is lost, or the index is out of range. *)
Theorem C41_interleaved_refuted :
  (exists line, write_pymc_string demo_repr demo_refit demo_show
     [demo_prior "a" 1 1 []; demo_prior "b" 2 1 [0%nat]; demo_prior "c" 3 1 []; demo_prior "e" 4 1 []; demo_prior "d" 5 1 [2%nat]] = Ok line /\
     line = (txt "with pm.Model() as model:" ++ nl ++
       (txt "    a = pm.Normal(" ++ quote ++ txt "a" ++ quote ++ txt ", mu=2)" ++ nl) ++
       (txt "    c = pm.Normal(" ++ quote ++ txt "c" ++ quote ++ txt ", mu=3)" ++ nl) ++
       (txt "    c = pm.Normal(" ++ quote ++ txt "c" ++ quote ++ txt ", mu=5)" ++ nl))%list) /\
  write_pymc_string demo_repr demo_refit demo_show
     [demo_prior "a" 1 1 []; demo_prior "b" 2 1 [0%nat]; demo_prior "c" 3 1 []; demo_prior "d" 5 1 [2%nat]] = Err IndexError.
Proof. split; [eexists; split; vm_compute; reflexivity|vm_compute; reflexivity]. Qed.
(** The Bambi text is never a complete dictionary (the opening brace is not closed), and the line rewritten for the
    parent of a hierarchical variable has one closing parenthesis too many. *)
Definition count (c : ascii) (s : text) : nat := List.length (filter (Ascii.eqb c) s).
(** The Bambi text is never a complete dictionary, and after a hierarchical variable its parentheses do not match either. *)
Theorem C41_bambi_unbalanced_refuted :
  (exists out, write_bambi_string demo_repr demo_refit demo_show [demo_prior "a" 1 1 []; demo_prior "b" 2 1 [0%nat]] = Ok out /\
     count c_open out <> count c_close out /\ count "{"%char out <> count "}"%char out) /\
  (exists out, write_bambi_string demo_repr demo_refit demo_show [demo_prior "a" 1 1 []] = Ok out /\
     count c_open out = count c_close out /\ count "{"%char out <> count "}"%char out).
Proof.
  split.
  - eexists. split; [vm_compute; reflexivity|]. split; vm_compute; discriminate.
  - eexists. split; [vm_compute; reflexivity|]. split; vm_compute; [reflexivity|discriminate].
Qed.

Print Assumptions C40_blocks.
Print Assumptions C40_transformed.
Print Assumptions C41_one_line_each.
Print Assumptions C41_bambi_lines.
Print Assumptions C41_unwritable.
