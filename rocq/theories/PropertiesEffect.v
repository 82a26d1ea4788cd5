(** What becomes of a recognised use (C83). *)
From Coq Require Import ZArith.
From Verif Require Import PyStr PyDict TablesData Lookup Ast ImportPass Walk BasicPass NodeEq Placed EffectSpec EffectFacts.
Opaque api_mapping attribute_mapping alias_mapping wildcard_mapping matcher_classes torch_package_mapping.

(** ** C83 *)
Theorem C83_effect_of_a_call : forall M (e : benv M) st p line f args kws api origin s r s',
  parent st = Ok p -> above st line s -> NoDup (dkeys (all_apis s)) ->
  visit_torch_call e f args kws api origin st s = Ok (r, s') ->
  (get_api_matcher api = LNone /\ r = Reply (VNode (Call f args kws)) /\
   booked api api (old_name api s) NotConverted s s' /\ requested line [] s s' /\ shared s' = shared s) \/
  exists a c row name ls w answer args' kws' extra rs m,
    let mt := MkMatcher a c row origin in
    get_api_matcher api = LMatcher a c row /\ named e mt st (shared s) name ls w /\
    call_nodes e mt args kws st w = Ok (answer, (args', kws'), extra, shared s') /\
    effect e p for_call (fun x => x) [] (Call f args' kws') answer r rs m /\
    booked api api name m s s' /\ requested line (map (ask e p) (ls ++ [extra]) ++ rs) s s'.
Proof. intros. eapply call_effect; eassumption. Qed.
Print Assumptions C83_effect_of_a_call.

Theorem C83_effect_of_a_method_call : forall M (e : benv M) st p line f args kws api origin s r s',
  parent st = Ok p -> above st line s -> NoDup (dkeys (all_apis s)) ->
  trans_class_method e f args kws api origin st (recognise api s) = Ok (r, s') ->
  let label := "*" ++ method_suffix api in
  (get_api_matcher api = LNone /\ r = Reply (VNode (Call f args kws)) /\
   booked api label (old_name api s) NotConverted s s' /\ requested line [([], [remark label])] s s' /\ shared s' = shared s) \/
  exists a c row name ls w answer args' kws' extra rs m,
    let mt := MkMatcher a c row origin in
    get_api_matcher api = LMatcher a c row /\ named e mt st (shared s) name ls w /\
    class_nodes e mt f (shown args) kws st w = Ok (answer, (args', kws'), extra, shared s') /\
    effect e p for_method (put_back args) [remark label] (Call f (if hides_self args then args else args') kws') answer r rs m /\
    booked api label name m s s' /\ requested line (map (ask e p) (ls ++ [extra]) ++ rs) s s'.
Proof. intros. eapply method_effect; eassumption. Qed.
Print Assumptions C83_effect_of_a_method_call.

Theorem C83_effect_of_an_attribute : forall M (e : benv M) st p line n api origin s r s',
  parent st = Ok p -> above st line s -> NoDup (dkeys (all_apis s)) ->
  trans_class_attribute e n api origin st (recognise api s) = Ok (r, s') ->
  (get_attribute_matcher api = LNone /\ r = Reply (VNode n) /\
   booked api api (old_name api s) NotConverted s s' /\ requested line [([], [remark api])] s s' /\ shared s' = shared s) \/
  exists a c row name ls w answer extra rs m,
    let mt := MkMatcher a c row origin in
    get_attribute_matcher api = LMatcher a c row /\ named e mt st (shared s) name ls w /\
    attr_nodes e mt n st w = Ok (answer, extra, shared s') /\
    effect e p for_attribute (fun x => x) [remark api] n answer r rs m /\
    booked api api name m s s' /\ requested line (map (ask e p) (ls ++ [extra]) ++ rs) s s'.
Proof. intros. eapply attribute_effect; eassumption. Qed.
Print Assumptions C83_effect_of_an_attribute.

Theorem C83_effect_of_a_package_name : forall M (e : benv M) st p line n api origin s r s',
  parent st = Ok p -> above st line s -> NoDup (dkeys (all_apis s)) ->
  visit_torch_attribute e n api origin st s = Ok (r, s') ->
  exists name rs m, name_effect e st p n api origin (shared s) r name rs m (shared s') /\
    booked api api (match name with Some t => t | None => old_name api s end) m s s' /\ requested line rs s s'.
Proof. intros. eapply package_name_effect; eassumption. Qed.
Print Assumptions C83_effect_of_a_package_name.

(** [y = torch.add(x)] as line 3 of a file; two statements are generated and an import is
    asked for. *)
Definition ex_call : node := Call (Attribute (Name "torch") "add") [Name "x"] [].
Definition ex_assign : node := Other "Assign" [Many "targets" [Name "y"]; One "value" ex_call].
Definition ex_stack : list frame :=
  [MkFrame ex_call (At "value" 0); MkFrame ex_assign (At "body" 3); MkFrame (Other "Module" [Many "body" [ex_assign]]) (At "" 0)].
Definition ex_line : place := ([At "" 0], "body", 3).
Definition ex_helper : node := Other "Assign" [Many "targets" [Name "tmp"]; One "value" (Name "x")].
Definition ex_import : node := Import [MkAlias "numpy" None].
Definition ex_env : benv nat :=
  MkBenv nat (MkIst [("torch", "torch")] [] ["torch"] [] [] [] []) (fun _ _ => false) (fun _ => false) (fun s => Ok (Name s))
    (fun m _ w => Ok (Some "paddle.add", [], S w)) (fun m n _ w => Ok (ANothing, [], w))
    (fun m a k _ w => Ok (ANodes [ex_helper; Other "Expr" [One "value" (Name "tmp")]], (a, k), [ex_import], w))
    (fun m f a k _ w => Ok (ANothing, (a, k), [], w)).
Definition ex_state : bst nat := MkBst 4 2 [("torch.add", ("paddle.add", 2))] [] [[At "" 0]] [(ex_line, [Name "z"])] 0%nat.
Lemma ex_run : visit_torch_call ex_env (Attribute (Name "torch") "add") [Name "x"] [] "torch.add" "torch.add" ex_stack ex_state
  = Ok (Reply (VNode (Name "tmp")), MkBst 5 3 [("torch.add", ("paddle.add", 3))] [] [[At "" 0]]
          [(ex_line, [Name "z"; ex_helper]); (file_top, [ex_import])] 2%nat).
Proof. vm_compute. reflexivity. Qed.
Example C83_nonvacuous : exists s' rs,
  parent ex_stack = Ok ex_assign /\ above ex_stack ex_line ex_state /\ NoDup (dkeys (all_apis ex_state)) /\
  visit_torch_call ex_env (Attribute (Name "torch") "add") [Name "x"] [] "torch.add" "torch.add" ex_stack ex_state = Ok (Reply (VNode (Name "tmp")), s') /\
  effect ex_env ex_assign for_call (fun x => x) [] ex_call (ANodes [ex_helper; Other "Expr" [One "value" (Name "tmp")]]) (Reply (VNode (Name "tmp"))) rs Converted /\
  booked "torch.add" "torch.add" "paddle.add" Converted ex_state s' /\ held ex_line s' = [Name "z"; ex_helper] /\ held file_top s' = [ex_import].
Proof.
  eexists _, _. split; [reflexivity|]. split; [intros a H; vm_compute in H; injection H as <-; reflexivity|]. split; [repeat constructor; intros []|].
  split; [apply ex_run|]. split; [|split; [|split; reflexivity]].
  - apply (eff_rewritten ex_env ex_assign for_call (fun x => x) [] ex_call [ex_helper] (Other "Expr" [One "value" (Name "tmp")]) (Name "tmp")).
    + apply of_line. reflexivity.
    + right. left. reflexivity.
    + intros [H|H]; discriminate H.
  - repeat split; try reflexivity. intros k N. cbn [all_apis dget ex_state]. destruct (String.eqb_spec k "torch.add"); [contradiction|reflexivity].
Qed.
