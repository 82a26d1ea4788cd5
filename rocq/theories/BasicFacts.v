(** Proofs about the conversion pass: counting. *)
From Coq Require Import ZArith Lia.
From Verif Require Import PyStr PyStrFacts PyDict PyDictFacts Args TablesData Lookup Ast AstFacts Walk WalkFacts ImportPass BasicPass BasicSpec.
Opaque api_mapping attribute_mapping alias_mapping wildcard_mapping matcher_classes.

(** ** Dictionaries of counts *)
Lemma usage_set k p c d : usage_counts (dset String.eqb k (p, c) d) = dset String.eqb k c (usage_counts d).
Proof.
  induction d as [|[k' [p' c']] d IH]; cbn; [reflexivity|]. destruct (String.eqb k k'); cbn; [reflexivity|]. f_equal. exact IH.
Qed.
Lemma usage_get k d : dget String.eqb k (usage_counts d) = option_map snd (dget String.eqb k d).
Proof. induction d as [|[k' [p' c']] d IH]; cbn; [reflexivity|]. destruct (String.eqb k k'); cbn; auto. Qed.
Lemma usage_del k d : usage_counts (ddel String.eqb k d) = ddel String.eqb k (usage_counts d).
Proof.
  induction d as [|[k' [p' c']] d IH]; cbn; [reflexivity|]. destruct (String.eqb k k'); cbn; [reflexivity|]. f_equal. exact IH.
Qed.
Lemma set_same_get {V} k (v : V) d : dget String.eqb k d = Some v -> dset String.eqb k v d = d.
Proof.
  induction d as [|[k' v'] d IH]; cbn; [discriminate|]. destruct (String.eqb k k') eqn:E.
  - intros [= ->]. reflexivity.
  - intros H. rewrite IH by exact H. reflexivity.
Qed.
Lemma del_set k c (d : dict string nat) : ddel String.eqb k (dset String.eqb k c d) = ddel String.eqb k d.
Proof.
  induction d as [|[k' v'] d IH]; cbn; [rewrite String.eqb_refl; reflexivity|].
  destruct (String.eqb k k') eqn:E; cbn; rewrite E; [reflexivity|]. f_equal. exact IH.
Qed.
Lemma total_set k c (d : dict string nat) :
  (total (dset String.eqb k c d) + match dget String.eqb k d with Some c => c | None => 0 end = total d + c)%nat.
Proof.
  unfold total, list_sum. induction d as [|[k' v'] d IH]; cbn; [lia|]. destruct (String.eqb k k'); cbn; lia.
Qed.
Lemma total_count_one k d : total (count_one k d) = Datatypes.S (total d).
Proof. unfold count_one. pose proof (total_set k (match dget String.eqb k d with Some c => Datatypes.S c | None => 1 end) d). destruct (dget String.eqb k d); lia. Qed.
Lemma total_del k d : (total (ddel String.eqb k d) <= total d)%nat.
Proof. unfold total, list_sum. induction d as [|[k' v'] d IH]; cbn; [lia|]. destruct (String.eqb k k'); cbn; lia. Qed.

(** ** Effects of the parts of a visitor on the books *)
Section Pass.
Context {M : Type}.
Variable e : benv M.
Notation bst := (bst M).

Definition same_books (s s' : bst) : Prop := books_of s' = books_of s /\ scopes s' = scopes s.
Lemma same_refl s : same_books s s. Proof. split; reflexivity. Qed.
Lemma same_trans s1 s2 s3 : same_books s1 s2 -> same_books s2 s3 -> same_books s1 s3.
Proof. unfold same_books. intros [-> ->] [-> ->]. split; reflexivity. Qed.
Lemma record_same p l s : same_books s (record p l s).
Proof. destruct l; split; reflexivity. Qed.
Local Opaque record.
Lemma shared_same s m : same_books s (with_shared s m).
Proof. split; reflexivity. Qed.
Lemma insert_multi_same l st s b s' : insert_multi_node e l st s = Ok (b, s') -> same_books s s'.
Proof.
  unfold insert_multi_node. intros H. destruct (filter _ l) as [|x r].
  - injection H as <- <-. apply record_same.
  - destruct (parent st) as [p|]; [|discriminate]. cbn [bind] in H. destruct (mem_str _ _).
    + injection H as <- <-. apply record_same.
    + destruct (scope_body_index _ _) as [q|]; [|discriminate]. cbn [bind] in H. injection H as <- <-.
      eapply same_trans; [|apply record_same]. apply record_same.
Qed.
Lemma ask_api_same m st s p s' : ask_api e m st s = Ok (p, s') -> same_books s s'.
Proof.
  unfold ask_api. intros H. destruct (api_of e m st (shared s)) as [[[q l] w]|]; [|discriminate]. cbn [bind] in H.
  destruct (insert_multi_node e l st (with_shared s w)) as [[b s1]|] eqn:E; [|discriminate]. cbn [bind] in H.
  injection H as <- <-. apply insert_multi_same in E. eapply same_trans; [apply shared_same|exact E].
Qed.
Lemma ask_api_answer m st s p s' : ask_api e m st s = Ok (p, s') -> exists l w, api_of e m st (shared s) = Ok (p, l, w).
Proof.
  unfold ask_api. intros H. destruct (api_of e m st (shared s)) as [[[q l] w]|]; [|discriminate]. cbn [bind] in H.
  destruct (insert_multi_node e l st (with_shared s w)) as [[b s1]|]; [|discriminate]. injection H as <- <-. eauto.
Qed.
Lemma note_same a p s : same_books s (note_paddle a p s).
Proof.
  unfold note_paddle, same_books, books_of. destruct (dget String.eqb a (all_apis s)) as [[p' c]|] eqn:E; [|split; reflexivity].
  cbn. rewrite usage_set, set_same_get; [split; reflexivity|]. rewrite usage_get, E. reflexivity.
Qed.
Lemma ask_note_same a m st s s' : ask_and_note e a m st s = Ok s' -> same_books s s'.
Proof.
  unfold ask_and_note. intros H. destruct (ask_api e m st s) as [[p s1]|] eqn:E; [|discriminate]. cbn [bind] in H.
  apply ask_api_same in E. destruct (truthy p).
  - destruct (ask_api e m st s1) as [[p2 s2]|] eqn:E2; [|discriminate]. cbn [bind] in H. injection H as <-.
    apply ask_api_same in E2. eapply same_trans; [exact E|]. eapply same_trans; [exact E2|]. apply note_same.
  - injection H as <-. eapply same_trans; [exact E|]. apply note_same.
Qed.

(** One visitor: at most one outcome. *)
Definition settles (s s' : bst) : Prop :=
  scopes s' = scopes s /\ (books_of s' = books_of s \/ exists o, books_of s' = enter (books_of s) o /\ no_op o /\ (never_misidentifies e -> stays o)).

(** After [recognise api]: how the books are closed. *)
Definition closes (api : string) (s s' : bst) : Prop :=
  scopes s' = scopes s /\
  let b := books_of s in
  (books_of s' = MkBooks (recognised b) (converted b + 1) (not_converted b) (usage b) \/
   (exists k, books_of s' = MkBooks (recognised b) (converted b) (count_one k (not_converted b)) (usage b)) \/
   (~ never_misidentifies e /\ books_of s' = MkBooks (recognised b - 1) (converted b) (not_converted b) (ddel String.eqb api (usage b)))).
Lemma closes_after api s s1 s2 : same_books s s1 -> closes api s1 s2 -> closes api s s2.
Proof. intros [E1 E2] [H1 H2]. split; [congruence|]. rewrite E1 in H2. exact H2. Qed.
Lemma succeed_closes api s : closes api s (succeed s).
Proof. split; [reflexivity|]. left. reflexivity. Qed.
Lemma unsupport_closes api k s : closes api s (unsupport k s).
Proof.
  split; [reflexivity|]. right; left. exists k. unfold books_of, unsupport, count_one. cbn. f_equal.
  destruct (dget String.eqb k (unsupported s)); reflexivity.
Qed.
Lemma misidentified_closes api s : ~ never_misidentifies e -> closes api s (misidentified api s).
Proof. intros N. split; [reflexivity|]. right; right. split; [exact N|]. unfold books_of. cbn. rewrite usage_del. reflexivity. Qed.
Lemma recognise_settles api s s' : closes api (recognise api s) s' -> settles s s'.
Proof.
  intros [E H]. split; [exact E|]. right.
  assert (U : usage (books_of (recognise api s)) = count_one api (usage (books_of s))).
  { unfold books_of, recognise, count_one. cbn. rewrite usage_set, usage_get.
    destruct (dget String.eqb api (all_apis s)) as [[p c]|]; reflexivity. }
  cbv zeta in H. rewrite U in H. destruct H as [H|[[k H]|[N H]]].
  - exists (Converted api). cbn. auto.
  - exists (Unsupported api k). cbn. auto.
  - exists (Misidentified api). cbn [no_op stays]. split; [|tauto]. rewrite H. unfold enter, count_one. cbn [recognised converted not_converted usage books_of recognise torch_count].
    rewrite del_set. unfold books_of. cbn. f_equal. lia.
Qed.
Lemma annotate_closes api k st s s' : annotate k st s = Ok s' -> closes api s s'.
Proof.
  unfold annotate. destruct (scope_body_index st (scopes s)); [|discriminate]. cbn [bind]. intros [= <-].
  eapply closes_after; [apply record_same|apply unsupport_closes].
Qed.

Ltac dest_bind H :=
  match type of H with
  | bind ?r _ = Ok _ =>
      let E := fresh "E" in
      destruct r eqn:E; [|discriminate H]; cbn [bind] in H
  end.
Ltac dest_pairs := repeat match goal with p : (_ * _)%type |- _ => destruct p end.

Lemma attribute_rest_closes n api api' origin st s r s' :
  attribute_rest e n api' origin st s = Ok (r, s') -> closes api s s'.
Proof.
  unfold attribute_rest. intros H. destruct (3 <=? _)%nat.
  - dest_bind H. destruct a as [m|]; [|injection H as <- <-; apply unsupport_closes].
    dest_bind H. destruct a as [p s1]. apply ask_api_same in E0.
    destruct p as [p|]; [|discriminate]. destruct (String.eqb p "unchange").
    + injection H as <- <-. eapply closes_after; [exact E0|apply succeed_closes].
    + dest_bind H. injection H as <- <-. eapply closes_after; [exact E0|apply succeed_closes].
  - injection H as <- <-. apply unsupport_closes.
Qed.
Lemma torch_attribute_settles n api origin st s r s' :
  visit_torch_attribute e n api origin st s = Ok (r, s') -> settles s s'.
Proof.
  unfold visit_torch_attribute. intros H. apply (recognise_settles api). set (s0 := recognise api s) in *. clearbody s0.
  dest_bind H. destruct a as [m|]; [|eapply attribute_rest_closes; exact H].
  dest_bind H. destruct a as [p s1]. pose proof (ask_api_answer _ _ _ _ _ E0) as [la [wa A]]. apply ask_api_same in E0. eapply closes_after; [exact E0|].
  destruct p as [p|]; [|eapply attribute_rest_closes; exact H].
  destruct (String.eqb p "delete").
  { dest_bind H. dest_bind H. destruct a; [injection H as <- <-; apply succeed_closes|].
    destruct (a0 && _); [injection H as <- <-; apply succeed_closes|]. eapply attribute_rest_closes; exact H. }
  destruct (String.eqb_spec p "misidentify") as [->|_]; [injection H as <- <-; apply misidentified_closes; intros [Q _]; exact (Q _ _ _ _ _ A)|].
  destruct (String.eqb p "unchange"); [injection H as <- <-; apply succeed_closes|].
  destruct (String.eqb p ""); [eapply attribute_rest_closes; exact H|].
  dest_bind H. injection H as <- <-. eapply closes_after; [apply note_same|apply succeed_closes].
Qed.

Lemma class_attribute_closes n api origin st s r s' :
  trans_class_attribute e n api origin st s = Ok (r, s') -> closes api s s'.
Proof.
  unfold trans_class_attribute. cbv zeta. intros H.
  assert (G : forall s, (let* s := annotate api st s in Ok (Reply (VNode n), s)) = Ok (r, s') -> closes api s s').
  { intros s0 H0. dest_bind H0. injection H0 as _ <-. eapply annotate_closes; eassumption. }
  dest_bind H. destruct a as [m|]; [|apply G, H].
  dest_bind H. apply ask_note_same in E0. eapply closes_after; [exact E0|]. clear E0.
  dest_bind H. destruct a0 as [[a0 l] w]. dest_bind H. destruct a1 as [b s1]. apply insert_multi_same in E1.
  eapply closes_after; [eapply same_trans; [apply shared_same|exact E1]|]. clear E1.
  destruct a0 as [| | |[|x l']|].
  - dest_bind H. destruct a0; [injection H as <- <-; apply succeed_closes|apply G, H].
  - injection H as <- <-. apply misidentified_closes. intros [_ [Q _]]; exact (Q _ _ _ _ _ _ E0).
  - injection H as <- <-. apply succeed_closes.
  - apply G, H.
  - destruct (mem_str _ _); [|apply G, H]. dest_bind H. destruct a0 as [ok s2]. apply insert_multi_same in E1.
    eapply closes_after; [exact E1|]. destruct ok; [injection H as <- <-; apply succeed_closes|apply G, H].
  - apply G, H.
Qed.
Lemma finish_attribute_settles n st s r s' : finish_attribute e n st s = Ok (r, s') -> settles s s'.
Proof.
  unfold finish_attribute. intros H.
  assert (N : forall n, Ok (Reply (VNode n), s) = Ok (r, s') -> settles s s').
  { intros m [= _ <-]. split; [reflexivity|left; reflexivity]. }
  dest_bind H. destruct (_ && _); [apply (N _ H)|]. cbv zeta in H. dest_bind H.
  destruct (start_with_torch e a0); [eapply torch_attribute_settles; exact H|].
  destruct (contains _ _); [apply (N _ H)|]. destruct (find _ _) as [api|]; [|apply (N _ H)].
  apply (recognise_settles api). eapply class_attribute_closes. exact H.
Qed.

Lemma torch_call_settles f args kws api origin st s r s' :
  visit_torch_call e f args kws api origin st s = Ok (r, s') -> settles s s'.
Proof.
  unfold visit_torch_call. intros H. apply (recognise_settles api). set (s0 := recognise api s) in *. clearbody s0.
  dest_bind H. destruct a as [m|]; [|injection H as <- <-; apply unsupport_closes].
  dest_bind H. apply ask_note_same in E0. eapply closes_after; [exact E0|]. clear E0.
  dest_bind H. destruct a0 as [[[a0 kept] l] w]. dest_bind H. destruct a1 as [b s1]. apply insert_multi_same in E1.
  eapply closes_after; [eapply same_trans; [apply shared_same|exact E1]|]. clear E1. cbv zeta in H.
  destruct a0 as [| | |[|x l']|].
  - dest_bind H. destruct a0; injection H as <- <-; [apply succeed_closes|apply unsupport_closes].
  - injection H as <- <-. apply misidentified_closes. intros [_ [_ [Q _]]]; exact (Q _ _ _ _ _ _ _ _ E0).
  - injection H as <- <-. apply succeed_closes.
  - injection H as <- <-. apply unsupport_closes.
  - destruct (mem_str _ _); [|injection H as <- <-; apply unsupport_closes].
    dest_bind H. destruct a0 as [ok s2]. apply insert_multi_same in E1.
    eapply closes_after; [exact E1|]. destruct ok; injection H as <- <-; [apply succeed_closes|apply unsupport_closes].
  - injection H as <- <-. apply unsupport_closes.
Qed.
Lemma class_method_closes f args kws api origin st s r s' :
  trans_class_method e f args kws api origin st s = Ok (r, s') -> closes api s s'.
Proof.
  unfold trans_class_method. cbv zeta. intros H.
  assert (G : forall a k s, (let* s := annotate ("*" ++ method_suffix api) st s in Ok (Reply (VNode (Call f a k)), s)) = Ok (r, s') -> closes api s s').
  { intros a k s0 H0. dest_bind H0. injection H0 as _ <-. eapply annotate_closes; eassumption. }
  dest_bind H. destruct a as [m|]; [|apply (G _ _ _ H)].
  dest_bind H. apply ask_note_same in E0. eapply closes_after; [exact E0|]. clear E0.
  dest_bind H. destruct a0 as [[[a0 kept] l] w]. dest_bind H. destruct a1 as [b s1]. apply insert_multi_same in E1.
  eapply closes_after; [eapply same_trans; [apply shared_same|exact E1]|]. clear E1.
  destruct a0 as [| | |[|x l']|].
  - dest_bind H. destruct a0; [injection H as <- <-; apply succeed_closes|apply (G _ _ _ H)].
  - injection H as <- <-. apply misidentified_closes. intros [_ [_ [_ Q]]]; exact (Q _ _ _ _ _ _ _ _ _ E0).
  - injection H as <- <-. apply succeed_closes.
  - apply (G _ _ _ H).
  - destruct (mem_str _ _); [|apply (G _ _ _ H)]. dest_bind H. destruct a0 as [ok s2]. apply insert_multi_same in E1.
    eapply closes_after; [exact E1|]. destruct ok; [injection H as <- <-; apply succeed_closes|apply (G _ _ _ H)].
  - apply (G _ _ _ H).
Qed.
Lemma finish_call_settles f args kws st s r s' : finish_call e f args kws st s = Ok (r, s') -> settles s s'.
Proof.
  unfold finish_call. intros H.
  assert (N : forall n, Ok (Reply (VNode n), s) = Ok (r, s') -> settles s s').
  { intros m [= _ <-]. split; [reflexivity|left; reflexivity]. }
  cbv zeta in H. dest_bind H.
  destruct (_ || _); [eapply torch_call_settles; exact H|].
  destruct (contains _ _); [apply (N _ H)|]. destruct (find _ _) as [api|]; [|apply (N _ H)].
  apply (recognise_settles api). eapply class_method_closes. exact H.
Qed.
Lemma visit_name_same i st (s : bst) r s' : visit_name i st s = Ok (r, s') -> s' = s.
Proof.
  unfold visit_name. intros H. dest_bind H.
  assert (N : forall n, Ok (Reply (VNode n), s) = Ok (r, s') -> s' = s) by (intros n [= _ <-]; reflexivity).
  destruct a as [| |[g| | | | |] ? ?| | |]; try apply (N _ H).
  destruct (mem_str _ _); [|apply (N _ H)]. destruct (dget _ _ _); apply (N _ H).
Qed.

(** Every visitor: at most one outcome, and the scopes are restored except that the
    visitor of a scope closes it. *)
Lemma basic_post_settles n st s r s' : basic_post e n st s = Ok (r, s') ->
  (books_of s' = books_of s \/ exists o, books_of s' = enter (books_of s) o /\ no_op o /\ (never_misidentifies e -> stays o)) /\
  scopes s' = if mem_str (kind_of n) scope_kinds then tl (scopes s) else scopes s.
Proof.
  unfold basic_post. intros H. destruct n as [i|v a|f a k|l|m l i|k fs]; cbn [kind_of].
  - apply visit_name_same in H. subst. split; [left|]; reflexivity.
  - apply finish_attribute_settles in H as [H1 H2]. split; [exact H2|exact H1].
  - apply finish_call_settles in H as [H1 H2]. split; [exact H2|exact H1].
  - injection H as <- <-. split; [left|]; reflexivity.
  - injection H as <- <-. split; [left|]; reflexivity.
  - destruct (mem_str k ["Attribute"; "Call"]); [discriminate|].
    destruct (String.eqb k "Expr") eqn:K.
    + injection H as <- <-. apply String.eqb_eq in K. subst k. split; [left|]; reflexivity.
    + destruct (mem_str k scope_kinds); injection H as <- <-; (split; [left|]; reflexivity).
Qed.

(** ** Whole trees *)
Definition outcomes_ok (l : list outcome) : Prop := Forall no_op l /\ (never_misidentifies e -> Forall stays l).
Definition history (s s' : bst) : Prop := exists l, books_of s' = enter_all (books_of s) l /\ outcomes_ok l.
Lemma history_refl s : history s s. Proof. exists []. repeat split; constructor. Qed.
Lemma history_trans s1 s2 s3 : history s1 s2 -> history s2 s3 -> history s1 s3.
Proof.
  intros [l [H [A B]]] [m [H' [A' B']]]. exists (l ++ m)%list. unfold enter_all in *. rewrite fold_left_app, <- H.
  split; [exact H'|]. split; [apply Forall_app; auto|]. intros N. apply Forall_app. auto.
Qed.

Theorem walk_history limit n p st s r st' s' :
  basic_walk e limit n p (st, s) = Ok (r, (st', s')) -> history s s'.
Proof.
  apply (walk_rel history history_refl history_trans).
  - intros m stk u go u' H. unfold basic_pre in H.
    destruct (mem_str (kind_of m) scope_kinds); injection H as _ <-; exists []; (split; [reflexivity|repeat split; constructor]).
  - intros m stk u r' u' H. apply basic_post_settles in H as [[H|[o [H [A B]]]] _]; [exists []|exists [o]];
      (split; [exact H|]); repeat split; repeat constructor; auto.
Qed.
Theorem transform_history limit n s n' s' :
  basic_transform e limit n s = Ok (n', s') -> history s s'.
Proof.
  unfold basic_transform. intros H. dest_bind H. destruct a as [r [st s1]]. apply walk_history in E.
  destruct r as [[x| |]|]; try discriminate. injection H as _ <-. exact E.
Qed.
End Pass.

(** ** Consequences for the books *)
Lemma enter_balance b o :
  (recognised (enter b o) - converted (enter b o) - Z.of_nat (total (not_converted (enter b o)))
   = recognised b - converted b - Z.of_nat (total (not_converted b)))%Z.
Proof. destruct o; cbn [enter recognised converted not_converted usage]; rewrite ?total_count_one; lia. Qed.
Lemma enter_all_balance l : forall b,
  (recognised (enter_all b l) - converted (enter_all b l) - Z.of_nat (total (not_converted (enter_all b l)))
   = recognised b - converted b - Z.of_nat (total (not_converted b)))%Z.
Proof. induction l as [|o l IH]; intros b; [reflexivity|]. cbn [enter_all fold_left]. rewrite <- (enter_balance b o). apply IH. Qed.
Lemma enter_converted b o : (converted b <= converted (enter b o))%Z.
Proof. destruct o; cbn; lia. Qed.
Lemma enter_all_converted l : forall b, (converted b <= converted (enter_all b l))%Z.
Proof. induction l as [|o l IH]; intros b; [cbn; lia|]. cbn [enter_all fold_left]. specialize (IH (enter b o)). pose proof (enter_converted b o). unfold enter_all in IH. lia. Qed.
Lemma enter_usage b o : (recognised b - Z.of_nat (total (usage b)) <= recognised (enter b o) - Z.of_nat (total (usage (enter b o))))%Z.
Proof. destruct o; cbn [enter recognised converted not_converted usage]; rewrite ?total_count_one; try lia. pose proof (total_del api (usage b)). lia. Qed.
Lemma enter_all_usage l : forall b,
  (recognised b - Z.of_nat (total (usage b)) <= recognised (enter_all b l) - Z.of_nat (total (usage (enter_all b l))))%Z.
Proof. induction l as [|o l IH]; intros b; [cbn; lia|]. cbn [enter_all fold_left]. specialize (IH (enter b o)). pose proof (enter_usage b o). unfold enter_all in IH. lia. Qed.

Lemma enter_all_stays l : Forall stays l -> forall b,
  (recognised (enter_all b l) - Z.of_nat (total (usage (enter_all b l))) = recognised b - Z.of_nat (total (usage b)))%Z.
Proof.
  induction 1 as [|o l S _ IH]; intros b; [reflexivity|]. cbn [enter_all fold_left]. fold (enter_all (enter b o) l). rewrite IH.
  destruct o; try contradiction; cbn [enter recognised converted not_converted usage]; rewrite total_count_one; lia.
Qed.
Lemma enter_all_app b l m : enter_all b (l ++ m) = enter_all (enter_all b l) m.
Proof. apply fold_left_app. Qed.
