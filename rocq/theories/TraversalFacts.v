(** The visitors of the four passes open and close scopes properly. *)
From Coq Require Import ZArith Lia.
From Verif Require Import PyStr PyDict Ast AstFacts ImportPass Walk WalkFacts TablesData Lookup BasicPass BasicSpec BasicFacts CustomPass Converter ConverterFacts TraversalSpec WalkGuard WalkBridge.

Opaque api_mapping attribute_mapping alias_mapping wildcard_mapping matcher_classes.
Local Opaque record.

Ltac rip H :=
  repeat match type of H with
  | Raise _ = Ok _ => discriminate H
  | bind ?m ?f = Ok _ => let E := fresh "E" in destruct m eqn:E; cbn [bind] in H; [|discriminate H]
  | (if ?b then _ else _) = Ok _ => let E := fresh "E" in destruct b eqn:E
  | (let '(_, _) := ?x in _) = Ok _ => destruct x
  | match ?x with _ => _ end = Ok _ => let E := fresh "E" in destruct x eqn:E
  end.

Section Basic.
  Context {M : Type}.
  Variable e : benv M.
  Definition never_deletes : Prop := forall m st w l w', api_of e m st w <> Ok (Some "delete", l, w').
  Lemma basic_post_listed : never_deletes -> forall n st s r s', basic_post e n st s = Ok (r, s') -> r <> Unlisted.
  Proof.
    intros D n st s r s' H ->. unfold basic_post in H. destruct n as [i|v a|f a k|l|m l i|k fs]; try discriminate.
    - unfold visit_name in H. rip H; discriminate.
    - unfold finish_attribute in H. cbv zeta in H. split_bind H. destruct (_ && _)%bool; [discriminate|].
      split_bind H. destruct (start_with_torch e a1).
      + unfold visit_torch_attribute in H. cbv zeta in H. split_bind H.
        assert (R : forall s0, attribute_rest e (Attribute v a) a1 (get_full_attr_strict e (Attribute v a)) st s0 <> Ok (Unlisted, s')).
        { intros s0 Q. unfold attribute_rest in Q. cbv zeta in Q. rip Q; discriminate. }
        destruct a2 as [m|]; [|exact (R _ H)]. split_bind H. destruct a2 as [[p|] s1]; [|exact (R _ H)].
        destruct (String.eqb_spec p "delete") as [->|N].
        * unfold ask_api in E2. split_bind E2. destruct a2 as [[p l] w]. split_bind E2. destruct a2. injection E2 as -> _. exact (D _ _ _ _ _ E3).
        * rip H; try discriminate; exact (R _ H).
      + rip H; try discriminate. unfold trans_class_attribute in H. cbv zeta in H. rip H; discriminate.
    - unfold finish_call in H. cbv zeta in H. rip H; try discriminate.
      + unfold visit_torch_call in H. cbv zeta in H. rip H; discriminate.
      + unfold trans_class_method in H. cbv zeta in H. rip H; discriminate.
    - rip H; discriminate.
  Qed.
End Basic.

(** ** The passes for C++ extensions *)
Lemma fold_scopes {A} (f : bst_c -> A -> bst_c) (l : list A) :
  (forall s x, scopes (f s x) = scopes s) -> forall s, scopes (fold_left f l s) = scopes s.
Proof. intros F. induction l as [|x l IH]; intros s; [reflexivity|]. cbn [fold_left]. rewrite IH. apply F. Qed.
Lemma uses_scopes ext stack s : scopes (uses_in_classes ext stack s) = scopes s.
Proof.
  apply fold_scopes. intros s0 f. destruct (String.eqb _ _); [|reflexivity]. apply fold_scopes.
  intros s1 b. destruct (String.eqb _ _); reflexivity.
Qed.
Definition closes (n : node) (s s' : bst_c) : Prop :=
  scopes s' = if mem_str (kind_of n) scope_kinds then tl (scopes s) else scopes s.
Lemma close_scope_closes n st s r s' : close_scope n st s = Ok (r, s') -> closes n s s' /\ r <> Unlisted.
Proof. unfold close_scope, closes. destruct (mem_str _ _); intros [= <- <-]; split; solve [reflexivity|discriminate]. Qed.
Lemma record_scopes {M} p l (s : bst M) : scopes (record p l s) = scopes s.
Proof. Local Transparent record. destruct l; reflexivity. Local Opaque record. Qed.
Lemma pre_custom_closes n st s r s' : pre_custom_post n st s = Ok (r, s') -> closes n s s' /\ r <> Unlisted.
Proof.
  unfold pre_custom_post. intros H. destruct n as [i|v a|f a k|l|m l i|k fs]; try (eapply close_scope_closes; exact H).
  - destruct v as [i|v a'|f a' k|l|m l i|k fs]; try (eapply close_scope_closes; exact H).
    injection H as <- <-. split; [|discriminate]. unfold closes. cbn [kind_of].
    rewrite (fold_scopes (fun s x => if String.eqb x i then uses_in_classes ("load_" ++ x) st s else s)).
    + apply (fold_scopes (fun s kv => if String.eqb (fst kv) i then uses_in_classes (snd kv) st s else s)).
      intros s0 x. destruct (String.eqb _ _); [apply uses_scopes|reflexivity].
    + intros s0 x. destruct (String.eqb _ _); [apply uses_scopes|reflexivity].
  - destruct (split_imports l (shared s)) as [kept c]. injection H as <- <-. split; [reflexivity|discriminate].
  - destruct (String.eqb_spec k "Assign") as [->|N].
    + destruct (field_child fs (At "value" 0)) as [[]|]; try (injection H as <- <-; split; [reflexivity|discriminate]).
      destruct (String.eqb _ _); [|injection H as <- <-; split; [reflexivity|discriminate]].
      destruct (field_child fs (At "targets" 0)) as [[]|]; try discriminate. injection H as <- <-. split; [reflexivity|discriminate].
    + assert (C : close_scope (Other k fs) st s = Ok (r, s')).
      { revert H. repeat (destruct k as [|[[][][][][][][][]] k]; try exact (fun h => h)). congruence. }
      eapply close_scope_closes; exact C.
Qed.
Lemma custom_closes n st s r s' : custom_post n st s = Ok (r, s') -> closes n s s' /\ r <> Unlisted.
Proof.
  unfold custom_post. intros H. destruct n as [i|v a|f a k|l|m l i|k fs]; try (eapply close_scope_closes; exact H).
  - unfold custom_attribute in H. destruct (find _ _) as [[name ext]|]; [|injection H as <- <-; split; [reflexivity|discriminate]].
    split_bind H. cbv zeta in H. split_bind H. injection H as <- <-. split; [|discriminate].
    unfold closes. rewrite record_scopes. reflexivity.
  - destruct (custom_from l (shared s)) as [[kept found] c]. injection H as <- <-. split; [|discriminate].
    unfold closes. rewrite record_scopes. reflexivity.
  - destruct (String.eqb_spec k "ClassDef") as [->|N].
    + injection H as <- <-. split; [reflexivity|discriminate].
    + assert (C : close_scope (Other k fs) st s = Ok (r, s')).
      { revert H. repeat (destruct k as [|[[][][][][][][][]] k]; try exact (fun h => h)). congruence. }
      eapply close_scope_closes; exact C.
Qed.
