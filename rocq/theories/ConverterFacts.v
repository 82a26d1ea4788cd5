(** Proofs about the counters of the converter. *)
From Coq Require Import ZArith QArith Lia.
From Verif Require Import PyStr PyDict PyDictFacts Ast Walk WalkFacts ImportPass BasicPass BasicSpec BasicFacts CustomPass Converter.
Open Scope string_scope.

Ltac split_bind H :=
  match type of H with
  | bind ?r _ = Ok _ =>
      let E := fresh "E" in
      destruct r eqn:E; [|discriminate H]; cbn [bind] in H
  end.

(** ** The two passes for C++ extensions *)
Definition op_only (o : outcome) : Prop := match o with ConvertedOp | UnsupportedOp _ => True | _ => False end.
Definition ops (s s' : bst_c) : Prop := exists l, books_of s' = enter_all (books_of s) l /\ Forall op_only l.
Lemma ops_refl s : ops s s. Proof. exists []. split; [reflexivity|constructor]. Qed.
Lemma ops_trans s1 s2 s3 : ops s1 s2 -> ops s2 s3 -> ops s1 s3.
Proof.
  intros [l [H A]] [m [H' A']]. exists (l ++ m)%list. rewrite enter_all_app, <- H. split; [exact H'|]. apply Forall_app. auto.
Qed.
Lemma ops_same s s' : books_of s' = books_of s -> ops s s'.
Proof. intros H. exists []. split; [exact H|constructor]. Qed.

Lemma fold_ops {A} (f : bst_c -> A -> bst_c) (l : list A) :
  (forall s x, ops s (f s x)) -> forall s, ops s (fold_left f l s).
Proof.
  intros F. induction l as [|x l IH]; intros s; [apply ops_refl|]. cbn [fold_left]. eapply ops_trans; [apply F|apply IH].
Qed.
Lemma uses_ops ext stack s : ops s (uses_in_classes ext stack s).
Proof.
  apply fold_ops. intros s0 f. destruct (String.eqb _ _); [|apply ops_refl].
  apply fold_ops. intros s1 b. destruct (String.eqb _ _); [|apply ops_refl].
  exists [ConvertedOp]. split; [reflexivity|repeat constructor].
Qed.
Lemma close_scope_ops n st s r s' : close_scope n st s = Ok (r, s') -> ops s s'.
Proof. unfold close_scope. destruct (mem_str _ _); intros [= _ <-]; apply ops_same; reflexivity. Qed.
Lemma record_books {M} p l (s : bst M) : books_of (record p l s) = books_of s.
Proof. destruct l; reflexivity. Qed.
Lemma pre_custom_ops n st s r s' : pre_custom_post n st s = Ok (r, s') -> ops s s'.
Proof.
  unfold pre_custom_post. intros H. destruct n as [i|v a|f a k|l|m l i|k fs]; try (eapply close_scope_ops; exact H).
  - destruct v as [i|v a'|f a' k|l|m l i|k fs]; try (eapply close_scope_ops; exact H).
    injection H as _ <-. eapply ops_trans.
    + apply fold_ops with (l := ext_imports (shared s)) (f := fun s kv => if String.eqb (fst kv) i then uses_in_classes (snd kv) st s else s).
      intros s0 x. destruct (String.eqb _ _); [apply uses_ops|apply ops_refl].
    + apply fold_ops. intros s0 x. destruct (String.eqb _ _); [apply uses_ops|apply ops_refl].
  - destruct (split_imports l (shared s)) as [kept c]. injection H as _ <-. apply ops_same. reflexivity.
  - destruct (String.eqb_spec k "Assign") as [->|N].
    + destruct (field_child fs (At "value" 0)) as [[]|]; try (injection H as _ <-; apply ops_refl).
      destruct (String.eqb _ _); [|injection H as _ <-; apply ops_refl].
      destruct (field_child fs (At "targets" 0)) as [[]|]; try discriminate. injection H as _ <-. apply ops_same. reflexivity.
    + assert (C : close_scope (Other k fs) st s = Ok (r, s')).
      { revert H. repeat (destruct k as [|[[][][][][][][][]] k]; try exact (fun h => h)). congruence. }
      eapply close_scope_ops; exact C.
Qed.
Lemma custom_ops n st s r s' : custom_post n st s = Ok (r, s') -> ops s s'.
Proof.
  unfold custom_post. intros H. destruct n as [i|v a|f a k|l|m l i|k fs]; try (eapply close_scope_ops; exact H).
  - unfold custom_attribute in H. destruct (find _ _) as [[name ext]|]; [|injection H as _ <-; apply ops_refl].
    split_bind H. cbv zeta in H. split_bind H. injection H as _ <-.
    exists [UnsupportedOp (name ++ ".apply")]. split; [|repeat constructor].
    unfold books_of, unsupport, enter_all. cbn. f_equal. unfold count_one. destruct (dget _ _ _); reflexivity.
  - destruct (custom_from l (shared s)) as [[kept found] c]. injection H as _ <-. apply ops_same.
    rewrite record_books. reflexivity.
  - destruct (String.eqb_spec k "ClassDef") as [->|N].
    + injection H as _ <-. apply ops_refl.
    + assert (C : close_scope (Other k fs) st s = Ok (r, s')).
      { revert H. repeat (destruct k as [|[[][][][][][][][]] k]; try exact (fun h => h)). congruence. }
      eapply close_scope_ops; exact C.
Qed.
Lemma run_custom_ops post limit root s root' s' :
  (forall n st s r s', post n st s = Ok (r, s') -> ops s s') ->
  run_custom post limit root s = Ok (root', s') -> ops s s'.
Proof.
  intros P H. unfold run_custom in H. split_bind H. destruct a as [r [st s1]].
  assert (O : ops s s1).
  { revert E. apply (walk_rel ops ops_refl ops_trans).
    - intros m stk u go u' Q. unfold custom_pre in Q. destruct (mem_str (kind_of m) scope_kinds); injection Q as _ <-; apply ops_same; reflexivity.
    - intros m stk u r' u' Q. eapply P. exact Q. }
  destruct r as [[x| |]|]; try discriminate. injection H as _ <-. exact O.
Qed.

(** ** One file, many files *)
Section Convert.
Context {M : Type}.
Variable u : setup M.

(** The books of a converter. *)
Definition ledger (c : conv M) : books := MkBooks (c_torch c) (c_success c) (c_unsupported c) (usage_counts (c_all c)).
(** The outcomes of a file: those of API uses, then those of C++ extensions. *)
Definition file_history (exists_path : string -> bool) (file : string) (l : list outcome) (c c' : conv M) : Prop :=
  ledger c' = enter_all (ledger c) l /\
  ((forall i, never_misidentifies (basic_env u file i)) -> Forall (fun o => stays o \/ op_only o) l).

Lemma enter_shift b o : forall t k,
  enter (MkBooks (recognised b + t) (converted b + k) (not_converted b) (usage b)) o =
  MkBooks (recognised (enter b o) + t) (converted (enter b o) + k) (not_converted (enter b o)) (usage (enter b o)).
Proof. intros t k. destruct o; cbn [enter recognised converted not_converted usage]; f_equal; lia. Qed.
Lemma enter_all_shift l : forall b t k,
  enter_all (MkBooks (recognised b + t) (converted b + k) (not_converted b) (usage b)) l =
  MkBooks (recognised (enter_all b l) + t) (converted (enter_all b l) + k) (not_converted (enter_all b l)) (usage (enter_all b l)).
Proof.
  induction l as [|o l IH]; intros b t k; [reflexivity|]. cbn [enter_all fold_left].
  rewrite enter_shift. apply (IH (enter b o)).
Qed.
Lemma collect_ledger {S} (c : conv M) (m : S) (s : bst S) l :
  books_of s = enter_all (books_of (transformer c m)) l -> ledger (collect c s) = enter_all (ledger c) l.
Proof.
  intros H. set (b := books_of (transformer c m)) in *.
  replace (ledger c) with (MkBooks (recognised b + c_torch c) (converted b + c_success c) (not_converted b) (usage b)) by reflexivity.
  rewrite enter_all_shift, <- H. unfold ledger, collect, books_of. cbn. f_equal; lia.
Qed.

Theorem transfer_node_history ex file root c root' c' :
  transfer_node u ex file root c = Ok (root', c') -> exists l, file_history ex file l c c'.
Proof.
  unfold transfer_node. intros H. split_bind H. destruct a as [r1 i].
  destruct (only_complete u).
  { injection H as _ <-. exists []. split; [reflexivity|constructor]. }
  set (c0 := with_import c file i) in *.
  split_bind H. destruct a as [r2 s1]. apply transform_history in E0 as [l1 [H1 [_ N1]]].
  apply collect_ledger in H1. set (c1 := with_matchers (collect c0 s1) (shared s1)) in *.
  split_bind H. destruct a as [r3 s2]. apply (run_custom_ops _ _ _ _ _ _ pre_custom_ops) in E0 as [l2 [H2 A2]].
  apply collect_ledger in H2. set (c2 := with_nodes (collect c1 s2) (autograd (shared s2))) in *.
  split_bind H. destruct a as [r4 s3]. apply (run_custom_ops _ _ _ _ _ _ custom_ops) in E0 as [l3 [H3 A3]].
  apply collect_ledger in H3. injection H as _ <-.
  exists (l1 ++ l2 ++ l3)%list. split.
  - rewrite !enter_all_app. change (ledger c) with (ledger c0). rewrite <- H1. change (ledger (collect c0 s1)) with (ledger c1).
    rewrite <- H2. exact H3.
  - intros N. apply Forall_app. split; [|apply Forall_app; split].
    + eapply Forall_impl; [|apply N1, N]. auto.
    + eapply Forall_impl; [|exact A2]. auto.
    + eapply Forall_impl; [|exact A3]. auto.
Qed.

Theorem convert_nodes_history ex l : forall c out c',
  convert_nodes u ex l c = Ok (out, c') -> exists h, ledger c' = enter_all (ledger c) h.
Proof.
  induction l as [|[file root] l IH]; intros c out c' H; cbn [convert_nodes] in H.
  - injection H as _ <-. exists []. reflexivity.
  - split_bind H. destruct a as [r c1]. split_bind H. destruct a as [rest c2]. injection H as _ <-.
    apply transfer_node_history in E as [h1 [E _]]. apply IH in E0 as [h2 E0]. exists (h1 ++ h2)%list.
    rewrite enter_all_app, <- E. exact E0.
Qed.
End Convert.
