(** C19: the stack of enclosing nodes and the stack of scopes during a traversal. *)
From Coq Require Import ZArith.
From Verif Require Import PyStr PyDict Ast ImportPass Walk TablesData Lookup BasicPass BasicSpec BasicFacts CustomPass Converter ConverterFacts
  TraversalSpec WalkGuard WalkBridge TraversalFacts PropertiesConverter.
Open Scope string_scope.
Opaque api_mapping attribute_mapping alias_mapping wildcard_mapping matcher_classes.

(** After the visit the stack and the open scopes are what they were. *)
Definition restored {T} (open : T -> list (list pos)) (stack : list frame) (s : T) (o : res (reply * (list frame * T))) : Prop :=
  forall r stack' s', o = Ok (r, (stack', s')) -> stack' = stack /\ open s' = open s.

(** The conversion pass.  The checked visitors raise when the stack or the scopes are not
    those of the node they are called for; a traversal that uses them does the same as
    one that does not.  The positions in lists are exact unless a matcher answers
    "delete" (no matcher and no row of the tables shipped does, see C68). *)
Theorem C19_conversion_pass : forall M (e : benv M) limit exact n p stack s,
  (exact = true -> never_deletes e) ->
  well_placed scope_kinds exact (scopes s) stack n p ->
  walk (checked_pre scope_kinds (@scopes M) exact basic_pre) (basic_again e) (checked_post scope_kinds (@scopes M) exact (basic_post e))
       limit n p (stack, s) = basic_walk e limit n p (stack, s) /\
  restored (@scopes M) stack s (basic_walk e limit n p (stack, s)).
Proof.
  intros M e limit exact n p stack s D [R [O H]].
  destruct (walk_checked scope_kinds (@scopes M) exact basic_pre (basic_again e) (basic_post e)) with (d := limit) (n := n) (p := p) (st := stack) (s := s)
    as [A B]; auto.
  - intros m st u go u' Q. unfold basic_pre in Q. destruct (mem_str (kind_of m) scope_kinds); injection Q as _ <-; reflexivity.
  - intros m st u r u' Q. apply basic_post_settles in Q as [_ Q]. exact Q.
  - intros X m st u r u' Q. eapply basic_post_listed; [exact (D X)|exact Q].
  - split; assumption.
  - split; [exact A|]. intros r stack' s' Q. destruct (B r stack' s' Q) as [? [? _]]. split; assumption.
Qed.
Print Assumptions C19_conversion_pass.

(** The two passes for C++ extensions. *)
Theorem C19_extension_passes : forall post limit n p stack s,
  post = pre_custom_post \/ post = custom_post ->
  well_placed scope_kinds true (scopes s) stack n p ->
  walk (checked_pre scope_kinds (@scopes cst) true custom_pre) custom_again (checked_post scope_kinds (@scopes cst) true post)
       limit n p (stack, s) = walk custom_pre custom_again post limit n p (stack, s) /\
  restored (@scopes cst) stack s (walk custom_pre custom_again post limit n p (stack, s)).
Proof.
  intros post limit n p stack s P [R [O H]].
  assert (C : forall m st u r u', post m st u = Ok (r, u') -> closes m u u' /\ r <> Unlisted).
  { destruct P as [-> | ->]; [apply pre_custom_closes|apply custom_closes]. }
  destruct (walk_checked scope_kinds (@scopes cst) true custom_pre custom_again post) with (d := limit) (n := n) (p := p) (st := stack) (s := s)
    as [A B]; auto.
  - intros m st u go u' Q. unfold custom_pre in Q. destruct (mem_str (kind_of m) scope_kinds); injection Q as _ <-; reflexivity.
  - intros m st u r u' Q. apply C in Q as [Q _]. exact Q.
  - intros _ m st u r u' Q. apply C in Q as [_ Q]. exact Q.
  - split; assumption.
  - split; [exact A|]. intros r stack' s' Q. destruct (B r stack' s' Q) as [? [? _]]. split; assumption.
Qed.
Print Assumptions C19_extension_passes.

(** The import pass (it uses no scopes).  [depth]: nothing is asked of the recursion limit
    beyond the depth of the tree. *)
Theorem C19_import_pass : forall e limit n p stack s,
  depth n <= limit ->
  well_placed [] true [] stack n p ->
  walk (checked_pre [] (fun _ => []) true import_pre) never (checked_post [] (fun _ => []) true (as_reply (import_post e)))
       limit n p (stack, s) = replied (visit import_pre (import_post e) n p (stack, s)) /\
  forall v stack' s', visit import_pre (import_post e) n p (stack, s) = Ok (v, (stack', s')) -> stack' = stack.
Proof.
  intros e limit n p stack s L [R [O H]].
  destruct (walk_checked [] (fun _ : ist => []) true import_pre never (as_reply (import_post e))) with (d := limit) (n := n) (p := p) (st := stack) (s := s)
    as [A B]; auto.
  - intros _ m st u r u' Q. unfold as_reply in Q. split_bind Q. destruct a. injection Q as <- _. discriminate.
  - split; assumption.
  - rewrite (walk_is_visit import_pre (import_post e) n limit L) in A, B. split; [exact A|].
    intros v stack' s' Q. rewrite Q in B. apply (B (Reply v) stack' s' eq_refl).
Qed.
Print Assumptions C19_import_pass.

(** A module: import torch; def f(x): if x: return torch.abs(x) *)
Definition ex_nested : node :=
  Other "Module" [Many "body" [
    Import [MkAlias "torch" None];
    Other "FunctionDef" [Data "name" "f"; Many "body" [
      Other "If" [One "test" (Name "x"); Many "body" [
        Other "Return" [One "value" (Call (Attribute (Name "torch") "abs") [Name "x"] [])]]]]]]].
Definition ex_env : benv nat := ex_matchers ANothing "/p/a.py" (MkIst [("torch", "torch")] [] ["torch"] [] [] [] []).
Definition ex_state : bst nat := MkBst 0 0 [] [] [] [] 0%nat.
Example C19_nonvacuous :
  never_deletes ex_env /\
  well_placed scope_kinds true (scopes ex_state) [] ex_nested (At "" 0) /\
  depth ex_nested = 7 /\
  exists n', basic_walk ex_env 100 ex_nested (At "" 0) ([], ex_state) = Ok (Reply (VNode n'), ([], MkBst 1 1 [("torch.abs", ("paddle.abs", 1%nat))] [] [] [] 1%nat)).
Proof.
  split; [intros m st w l w' [=]|]. split; [split; [reflexivity|split; [reflexivity|exact I]]|]. split; [reflexivity|].
  eexists. vm_compute. reflexivity.
Qed.
(** The checks are not idle: with a wrong stack the checked visitor raises. *)
Example C19_checks_bite :
  checked_post scope_kinds (@scopes nat) true (basic_post ex_env) (Name "x") [MkFrame (Name "x") (At "value" 0); MkFrame (Name "y") (At "" 0)] ex_state
  = Raise "wrong bookkeeping".
Proof. reflexivity. Qed.
