(** Calls of APIs that have their own rule (C117). *)
From Verif Require Import PyStr PyStrFacts PyDict UtilsFile TablesData Lookup Args ArgsSpec GenericSpec Ast BasicPass
  Generate Shipped ShippedSpec OwnRules OwnRulesFacts.
From Verif Require Special.
Opaque api_mapping attribute_mapping alias_mapping wildcard_mapping matcher_classes torch_package_mapping.

(** ** C117 *)
(** The answer to a call of such an API is what its rule says. *)
Theorem C117_the_rule_of_the_api_is_followed : forall t q r recv args kws w x exts a l w',
  about_call t q r recv args kws -> own_rule t r args kws w recv x exts ->
  answered t q w a l w' -> says t r w x a l w' /\ cpp_extensions w' = exts.
Proof. exact own_followed. Qed.
Print Assumptions C117_the_rule_of_the_api_is_followed.
(** There is an answer unless the rule raises an exception or the parser rejects its code. *)
Theorem C117_there_is_an_answer : forall t q r recv args kws w x exts,
  about_call t q r recv args kws -> own_rule t r args kws w recv x exts ->
  (forall e, x <> Special.Raises e) -> (forall h s, x = Special.Produce h s -> exists ns, parse t s = Ok ns) ->
  exists a l w', answered t q w a l w'.
Proof. intros t q r recv args kws w x exts A R N P. eapply own_answers; [exact A|exact R|split; assumption]. Qed.
Print Assumptions C117_there_is_an_answer.
(** An API has one rule. *)
Theorem C117_one_rule : forall t r args kws w recv x exts y exts',
  (exists api a c, get_api_matcher api = LMatcher a c r) ->
  own_rule t r args kws w recv x exts -> own_rule t r args kws w recv y exts' -> x = y /\ exts = exts'.
Proof. exact own_rule_functional. Qed.
Print Assumptions C117_one_rule.

(** [x.max()] and [x.min(0)], for the receiver [x]. *)
Definition shown (n : node) : string := match n with Name i => i | Attribute (Name v) a => v ++ "." ++ a | _ => "?" end.
Definition ex_tools : tools :=
  MkTools shown (fun s => Ok [Name s]) (fun c => "# helpers of " ++ c) [ImportFrom (Some "paddle_utils") [MkAlias "*" None] 0] false.
Definition empty : world := MkWorld [] [] [].
Lemma max_row : match get_api_matcher "torch.Tensor.max" with
  | LMatcher a c r => r_name r = "torch.Tensor.max" /\ r_matcher r = Some "TensorMaxMatcher" /\
      forall v, Special.extremum_nodes "max" v (r_entry r) [] [] = Special.Produce true (v ++ "._max()")
  | _ => False end.
Proof. vm_compute. repeat split. Qed.
Example C117_nonvacuous :
  exists q r w',
    about_call ex_tools q r (Some "x") [] [] /\
    own_rule ex_tools r [] [] empty (Some "x") (Special.Produce true "x._max()") [] /\
    answered ex_tools q empty (ANodes [Name "x._max()"]) (helper_imports ex_tools) w' /\
    helpers w' = ["# helpers of TensorMaxMatcher"].
Proof.
  pose proof max_row as H. destruct (get_api_matcher "torch.Tensor.max") as [| | |a c r] eqn:L; try contradiction.
  destruct H as (N & MT & X).
  set (q := AskMethod (MkMatcher a c r "x.max") (Attribute (Name "x") "max") [] [] []).
  assert (A : about_call ex_tools q r (Some "x") [] []).
  { exists "torch.Tensor.max", a, c, "x.max", []. split; [exact L|]. exists (Attribute (Name "x") "max"). split; [vm_compute|]; reflexivity. }
  assert (R : own_rule ex_tools r [] [] empty (Some "x") (Special.Produce true "x._max()") []).
  { change (Special.Produce true "x._max()") with (Special.Produce true ("x" ++ "._max()")). rewrite <- (X "x"). apply (rule_max ex_tools r [] [] empty "x" N). }
  destruct (own_answers _ _ _ _ _ _ empty _ _ A R) as (y & l & w' & E).
  { split; [discriminate|]. intros h s [= <- <-]. exists [Name "x._max()"]. reflexivity. }
  destruct (own_followed _ _ _ _ _ _ _ _ _ _ _ _ A R E) as [S _]. inversion S as [h code ns l0 w0 PA W| | |]; subst.
  cbn [parse ex_tools] in PA. injection PA as <-. destruct W as (c' & M & W). rewrite MT in M. injection M as <-. cbn [andb helper_code ex_tools append String.eqb negb] in W.
  destruct W as [-> W]. exists q, r, w'. split; [exact A|]. split; [exact R|]. split; [exact E|exact W].
Qed.
