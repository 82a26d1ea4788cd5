(** C15-C18: recording statements, inserting them, and finding where. *)
From Verif Require Import PyStr PyStrFacts PyDict PyDictFacts Scope ScopeSpec ScopeFacts.

(** C15. After any history of requests for existing positions, every block is the
    original block with, before statement [i], what was collected for [i]. *)
Theorem C15_insertion_exact :
  forall (hist : list request) (blocks : store) (n : nat) (f : string),
  consistent hist ->
  (forall q, In q hist -> (req_index q <= List.length (blocks (req_node q) (req_field q)))%nat) ->
  insert_scope (run hist) blocks n f = woven (collected hist n f) 0 (blocks n f).
Proof. exact insertion_exact. Qed.
Print Assumptions C15_insertion_exact.

(** In particular the user's statements stay, in order: deleting the inserted ones
    gives the block back. *)
Theorem C15_user_statements_kept :
  forall (hist : list request) (blocks : store) (n : nat) (f : string) (mine : obj -> bool),
  consistent hist ->
  (forall q, In q hist -> (req_index q <= List.length (blocks (req_node q) (req_field q)))%nat) ->
  (forall x, In x (blocks n f) -> mine x = true) ->
  (forall q x, In q hist -> In x (req_stmts q) -> mine x = false) ->
  filter mine (insert_scope (run hist) blocks n f) = blocks n f.
Proof.
  intros hist s n f mine C B M N. rewrite insertion_exact by assumption.
  assert (Z : forall i, filter mine (collected hist n f i) = []).
  { intros i. unfold collected.
    assert (G : forall bs cur, filter mine cur = [] ->
              (forall b x, In b bs -> In x b -> mine x = false) -> filter mine (fold_left add_batch bs cur) = []).
    { induction bs as [|b bs IH]; intros cur Hc Hb; [exact Hc|]. cbn [fold_left]. apply IH.
      - unfold add_batch. rewrite filter_app, Hc. cbn [app].
        assert (forall l, (forall x, In x l -> mine x = false) -> filter mine l = []) as Y.
        { induction l as [|x l IHl]; intros Hl; [reflexivity|]. simpl. rewrite Hl by (left; reflexivity).
          apply IHl. intros y Hy. apply Hl. right. exact Hy. }
        apply Y. intros x Hx. apply filter_In in Hx as [Hx _]. apply (Hb b); [left; reflexivity|exact Hx].
      - intros b' x Hb' Hx. apply (Hb b'); [right; exact Hb'|exact Hx]. }
    apply G; [reflexivity|]. intros b x Hb Hx. apply in_map_iff in Hb as (q & <- & Hq).
    apply filter_In in Hq as [Hq _]. apply (N q x Hq Hx). }
  generalize dependent (s n f). intros block M. generalize 0.
  induction block as [|x r IH]; intros k; simpl; [apply Z|].
  rewrite filter_app, Z. cbn [app filter]. rewrite M by (left; reflexivity). f_equal.
  apply IH. intros y Hy. apply M. right. exact Hy.
Qed.
Print Assumptions C15_user_statements_kept.

Example C15_nonvacuous :
  let a := MkObj 1 "a" in let b := MkObj 2 "b" in let x := MkObj 10 "x" in let y := MkObj 11 "y" in
  let x2 := MkObj 12 "x" in let z := MkObj 13 "z" in
  let blocks : store := fun n f => if Nat.eqb n 0 && String.eqb f "body" then [a; b] else [] in
  let hist := [MkReq 0 "body" 1 [x; y]; MkReq 0 "body" 0 [x]; MkReq 0 "body" 1 [x2; z]; MkReq 0 "body" 2 [z]] in
  consistent hist /\
  (forall q, In q hist -> (req_index q <= List.length (blocks (req_node q) (req_field q)))%nat) /\
  insert_scope (run hist) blocks 0 "body" = [x; a; x; y; z; b; z].
Proof.
  cbv zeta. split; [|split; [|reflexivity]].
  - intros q u v Hq Hu Hv. simpl in Hq. intuition subst; simpl in Hu, Hv; intuition subst; simpl in *; congruence || reflexivity.
  - intros q Hq. simpl in Hq. intuition subst; simpl; repeat constructor.
Qed.

(** C16. *)
Theorem C16_recording_again_has_no_effect :
  forall (r : recs) (n : nat) (f : string) (i : nat) (stmts : list obj) n' f' i',
  consistent_list stmts ->
  let once := record_scope r n f i stmts in
  get3 (record_scope once n f i stmts) n' f' i' = get3 once n' f' i'.
Proof.
  intros r n f i l n' f' i' C once. unfold once. rewrite (get3_record _ n f i l n' f' i' C).
  destruct (Nat.eqb n' n && String.eqb f' f && Nat.eqb i' i) eqn:E; [|reflexivity].
  rewrite !get3_record by exact C. rewrite !Nat.eqb_refl, String.eqb_refl, E. cbn [andb].
  apply add_batch_again.
Qed.
Print Assumptions C16_recording_again_has_no_effect.

(** One request at one place: the old statements stay first, only statements of the
    request with a new dump are added, each dump of the request is present
    afterwards, and no other place changes. *)
Theorem C16_recording_extends :
  forall (r : recs) (n : nat) (f : string) (i : nat) (stmts : list obj),
  consistent_list stmts ->
  (exists added,
    get3 (record_scope r n f i stmts) n f i = (get3 r n f i ++ added)%list /\
    (forall x, In x added <-> In x stmts /\ ~ In (odump x) (map odump (get3 r n f i))) /\
    (forall x, In x stmts -> In (odump x) (map odump (get3 (record_scope r n f i stmts) n f i)))) /\
  (forall n' f' i', (n', f', i') <> (n, f, i) ->
     get3 (record_scope r n f i stmts) n' f' i' = get3 r n' f' i').
Proof.
  intros r n f i l C. split.
  - rewrite get3_record by exact C. rewrite !Nat.eqb_refl, String.eqb_refl. cbn [andb].
    exists (filter (fun x => negb (existsb (fun e => String.eqb (odump x) (odump e)) (get3 r n f i))) l).
    split; [reflexivity|]. split.
    + intros x. rewrite filter_In, negb_true_iff. rewrite <- existsb_dump.
      destruct (existsb _ (get3 r n f i)); intuition congruence.
    + intros x Hx. unfold add_batch. rewrite map_app, in_app_iff.
      destruct (existsb (fun e => String.eqb (odump x) (odump e)) (get3 r n f i)) eqn:X.
      * left. apply existsb_dump, X.
      * right. apply in_map. apply filter_In. rewrite X. auto.
  - intros n' f' i' Ne. rewrite get3_record by exact C.
    destruct (Nat.eqb_spec n' n); [|reflexivity]. destruct (String.eqb_spec f' f); [|reflexivity].
    destruct (Nat.eqb_spec i' i); [|reflexivity]. subst. congruence.
Qed.
Print Assumptions C16_recording_extends.

Example C16_nonvacuous : consistent_list [MkObj 1 "a"; MkObj 2 "a"; MkObj 3 "b"].
Proof. intros x y Hx Hy. simpl in *. intuition subst; simpl in *; congruence || reflexivity. Qed.

(** C17 (violated). A statement recorded for [s1] lands after [s1] once the
    statement before [s1] has been deleted from the block. *)
Theorem C17_position_after_deletion_refuted :
  exists (s0 s1 new : obj) (before after : store),
  before 0 "body" = [s0; s1] /\ after 0 "body" = [s1] /\
  (exists i, nth_error (before 0 "body") i = Some s1 /\
     insert_scope (run [MkReq 0 "body" i [new]]) after 0 "body" = [s1; new]).
Proof.
  exists (MkObj 1 "a"), (MkObj 2 "b"), (MkObj 3 "new"),
    (fun n f => if Nat.eqb n 0 && String.eqb f "body" then [MkObj 1 "a"; MkObj 2 "b"] else []),
    (fun n f => if Nat.eqb n 0 && String.eqb f "body" then [MkObj 2 "b"] else []).
  repeat split. exists 1. split; reflexivity.
Qed.
Print Assumptions C17_position_after_deletion_refuted.

(** It does hold when nothing before the statement was deleted. *)
Theorem C17_position_without_earlier_deletion :
  forall (pre post new : list obj) (s : obj) (after : store) (n : nat) (f : string),
  consistent_list new ->
  after n f = (pre ++ s :: post)%list ->
  insert_scope (run [MkReq n f (List.length pre) new]) after n f
  = (pre ++ new ++ s :: post)%list.
Proof.
  intros pre post new s after n f C E.
  assert (SP : forall k j, same_place n f j (MkReq n f k new) = Nat.eqb k j).
  { intros k j. unfold same_place. cbn [req_node req_field req_index].
    rewrite Nat.eqb_refl, String.eqb_refl. reflexivity. }
  rewrite insertion_exact.
  - rewrite E. unfold collected. cbn [filter map fold_left].
    assert (G : forall p k, woven (fun i => fold_left add_batch
               (map req_stmts (if Nat.eqb (k + List.length p) i
                               then [MkReq n f (k + List.length p) new] else [])) []) k (p ++ s :: post)
             = (p ++ new ++ s :: post)%list).
    { induction p as [|x p IH]; intros k.
      - cbn [app List.length woven]. rewrite Nat.add_0_r, Nat.eqb_refl.
        cbn [map fold_left req_stmts]. rewrite add_batch_nil.
        do 2 f_equal. rewrite <- (woven_nil post (S k)) at 2. apply woven_ext. intros j Hj.
        destruct (Nat.eqb_spec k j) as [->|]; [|reflexivity].
        exfalso. apply (Nat.nle_succ_diag_l j). apply Hj.
      - cbn [app List.length woven].
        destruct (Nat.eqb_spec (k + S (List.length p)) k) as [X|_].
        { exfalso. rewrite <- (Nat.add_0_r k) in X at 2. apply Nat.add_cancel_l in X. discriminate. }
        cbn [map fold_left app]. f_equal.
        rewrite <- (IH (S k)). replace (k + S (List.length p)) with (S k + List.length p) by (rewrite Nat.add_succ_r; reflexivity).
        reflexivity. }
    rewrite <- (G pre 0) at 1. apply woven_ext. intros j _. cbn [Nat.add]. rewrite SP. reflexivity.
  - intros q x y [<-|[]]. apply C.
  - intros q [<-|[]]. simpl. rewrite E, app_length. apply Nat.le_add_r.
Qed.
Print Assumptions C17_position_without_earlier_deletion.

(** C18. The answer of the lookup is an entry on the way to the current node, in the
    innermost or the next enclosing scope. *)
Theorem C18_lookup_sound :
  forall fields fuel node_stack scope_stack sc f i,
  root_at_bottom fields node_stack ->
  scope_body_index fields fuel node_stack scope_stack = LFound (Found sc f i) ->
  encloses fields node_stack sc f i /\
  (exists below, scope_stack = (below ++ [sc])%list \/ exists s, scope_stack = (below ++ [sc; s])%list).
Proof.
  intros fields fuel ns ss sc f i R H. unfold scope_body_index in H.
  assert (E1 : forall k x, at_end ss k = Some x ->
     match k with 0 => exists b, ss = (b ++ [x])%list | 1 => exists b s, ss = (b ++ [x; s])%list | _ => True end).
  { intros k x A. unfold at_end in A. rewrite <- (rev_involutive ss).
    destruct k as [|[|k]]; [| |exact I]; destruct (rev ss) as [|a [|b r]]; try discriminate; simpl in A; injection A as ->.
    - exists []. reflexivity.
    - exists (rev r ++ [b])%list. reflexivity.
    - exists (rev r), a. simpl. rewrite <- app_assoc. reflexivity. }
  destruct (at_end ss 0) as [s1|] eqn:A; [|discriminate].
  destruct (search_scope fields ns s1) as [fd|] eqn:S.
  - injection H as ->. apply search_scope_sound in S as (f' & i' & E & En); [|exact R].
    injection E as -> -> ->. split; [exact En|]. destruct (E1 0 s1 A) as (b & ->). exists b. auto.
  - assert (G : exists s2, at_end ss 1 = Some s2 /\ search_scope fields ns s2 = Some (Found sc f i)).
    { clear -H. induction fuel as [|k IH]; cbn [lookup2] in H; [discriminate|].
      destruct (at_end ss 1) as [s2|]; [|discriminate]. exists s2. split; [reflexivity|].
      destruct (search_scope fields ns s2) as [fd|] eqn:S2; [injection H as ->; reflexivity|].
      destruct (IH H) as (s3 & E & X). injection E as <-. congruence. }
    destruct G as (s2 & A2 & S2). apply search_scope_sound in S2 as (f' & i' & E & En); [|exact R].
    injection E as -> -> ->. split; [exact En|]. destruct (E1 1 s2 A2) as (b & s & ->). exists b. right. exists s. reflexivity.
Qed.
Print Assumptions C18_lookup_sound.

(** If neither of the two innermost scopes has such an entry, the lookup never
    returns, whatever the recursion limit. *)
Theorem C18_lookup_diverges :
  forall fields fuel node_stack below s2 s1,
  root_at_bottom fields node_stack ->
  (forall f i, ~ encloses fields node_stack s1 f i) -> (forall f i, ~ encloses fields node_stack s2 f i) ->
  scope_body_index fields fuel node_stack (below ++ [s2; s1]) = LNoEnd.
Proof.
  intros fields fuel ns below s2 s1 R N1 N2. unfold scope_body_index, at_end.
  rewrite rev_app_distr. cbn [rev app nth_error].
  assert (X : forall s, (forall f i, ~ encloses fields ns s f i) -> search_scope fields ns s = None).
  { intros s N. destruct (search_scope fields ns s) as [fd|] eqn:S; [|reflexivity].
    apply search_scope_sound in S as (f & i & _ & En); [|exact R]. exfalso. apply (N f i En). }
  rewrite (X s1 N1). apply (lookup2_none _ _ _ _ s2); [|apply X, N2].
  unfold at_end. rewrite rev_app_distr. reflexivity.
Qed.
Print Assumptions C18_lookup_diverges.

(** If the innermost scope encloses the node, it is the one that is returned. *)
Theorem C18_lookup_innermost :
  forall fields fuel node_stack below s f i,
  root_at_bottom fields node_stack -> encloses fields node_stack s f i ->
  exists f' i', scope_body_index fields fuel node_stack (below ++ [s]) = LFound (Found s f' i').
Proof.
  intros fields fuel ns below s f i R En. unfold scope_body_index, at_end.
  rewrite rev_app_distr. cbn [rev app nth_error].
  destruct (search_scope fields ns s) as [fd|] eqn:S.
  - apply search_scope_sound in S as (f' & i' & -> & _); [|exact R]. eauto.
  - exfalso. apply (search_scope_none _ _ _ S f i En).
Qed.
Print Assumptions C18_lookup_innermost.

(** try: ... except T: ...  An API in [T] that needs inserted statements: the
    handler (3) is not in any of the four fields of the try (2). *)
Example C18_nonvacuous :
  let fields n f := match n with
    | 0 => if String.eqb f "body" then [1; 2] else []
    | 2 => if String.eqb f "body" then [5] else []
    | 3 => if String.eqb f "body" then [6] else []
    | _ => [] end in
  root_at_bottom fields [0; 2; 3; 4] /\
  (forall fuel, scope_body_index fields fuel [0; 2; 3; 4] [0; 2; 3] = LNoEnd) /\
  scope_body_index fields 0 [0; 2; 5; 7] [0; 2] = LFound (Found 2 "body" 0).
Proof.
  intros fields.
  assert (R : root_at_bottom fields [0; 2; 3; 4]).
  { exists 0, [2; 3; 4]. split; [reflexivity|]. intros sc f.
    destruct sc as [|[|[|[|sc]]]]; simpl; try destruct (String.eqb f "body"); simpl; intuition discriminate. }
  split; [exact R|]. split; [|reflexivity]. intros fuel.
  change [0; 2; 3] with ([0] ++ [2; 3])%list.
  apply C18_lookup_diverges; [exact R| |]; intros f i (a & b & c & E & J & K).
  - destruct a as [|? [|? [|? [|? a]]]]; simpl in E; try discriminate;
      try (exfalso; destruct a; discriminate); inversion E; subst;
      apply nth_error_In in K; simpl in K; destruct (String.eqb f "body"); simpl in K; intuition discriminate.
  - destruct a as [|? [|? [|? [|? a]]]]; simpl in E; try discriminate;
      try (exfalso; destruct a; discriminate); inversion E; subst;
      apply nth_error_In in K; simpl in K; destruct (String.eqb f "body"); simpl in K; intuition discriminate.
Qed.
