(** Names of APIs that are not called, and attributes of values, in a conversion with the
    matchers and tables that are shipped (C118). *)
From Verif Require Import PyStr PyStrFacts PyDict UtilsFile TablesData Lookup LookupSpec Args ArgsSpec Ast ImportPass Walk BasicPass
  BasicSpec Placed EffectSpec GenericSpec Generate GenerateData RecogniseSpec Shipped ShippedSpec NameUses NameUsesFacts.
From Verif Require PropertiesShipped.
Opaque api_mapping attribute_mapping alias_mapping wildcard_mapping matcher_classes torch_package_mapping generators.

(** ** C118 *)
(** A name of an API that is not called is replaced by the name the API has in paddle. *)
Theorem C118_names_are_replaced : forall t imps n api a c r name new st p line s,
  let e := shipped_env t imps in
  plain_file e -> plain_use e n -> parent st = Ok p -> ~ (exists f x k, p = Call f x k /\ field_is "func" (here st) = true) ->
  stands_for e false n (Package api) -> attribute_lookup api = LMatcher a c r -> new_name t a r name ->
  parse_expr e name = Ok new -> scope_body_index st (scopes s) = Ok line -> NoDup (dkeys (all_apis s)) ->
  exists s' l, finish_attribute e n st s = Ok (Reply (VNode new), s') /\
    booked api api name EffectSpec.Converted s s' /\ requested line [ask e p l] s s' /\ brings t c r (shared s) l (shared s').
Proof. exact name_rewritten. Qed.
Print Assumptions C118_names_are_replaced.
(** A member of such a name, which has no row itself, becomes the member of the new name. *)
Theorem C118_members_of_names : forall t imps n h rest x a c r st p line s name new,
  let e := shipped_env t imps in let api := (h ++ "." ++ rest) ++ "." ++ x in
  plain_file e -> plain_use e n -> parent st = Ok p -> ~ (exists f x k, p = Call f x k /\ field_is "func" (here st) = true) ->
  stands_for e false n (Package api) -> no_char "."%char x -> attribute_lookup api = LNone ->
  get_api_matcher (h ++ "." ++ rest) = LMatcher a c r -> new_name t a r name -> parse_expr e (name ++ "." ++ x) = Ok new ->
  scope_body_index st (scopes s) = Ok line -> NoDup (dkeys (all_apis s)) ->
  exists s' l, finish_attribute e n st s = Ok (Reply (VNode new), s') /\
    booked api api (old_name api s) EffectSpec.Converted s s' /\ requested line [ask e p l] s s' /\ brings t c r (shared s) l (shared s').
Proof. intros. eapply member_of_name; eassumption. Qed.
Print Assumptions C118_members_of_names.
(** A member of an API whose row gives no name stops the conversion of the file. *)
Theorem C118_members_of_nameless_rows_refuted : forall t imps n h rest x a c r st p s,
  let e := shipped_env t imps in let api := (h ++ "." ++ rest) ++ "." ++ x in
  plain_file e -> plain_use e n -> parent st = Ok p -> ~ (exists f x k, p = Call f x k /\ field_is "func" (here st) = true) ->
  stands_for e false n (Package api) -> no_char "."%char x -> attribute_lookup api = LNone ->
  get_api_matcher (h ++ "." ++ rest) = LMatcher a c r ->
  ~ In c ["ChangePrefixMatcher"; "EinopsTorchMatcher"; "TransformersGenericMatcher"; "FAApplyRotaryEmbFuncMatcher"; "PaddleFlagMatcher"] ->
  paddle_api (r_entry r) = None -> exists x, finish_attribute e n st s = Raise x.
Proof. intros. eapply member_of_nameless; eassumption. Qed.
Print Assumptions C118_members_of_nameless_rows_refuted.

(** Attributes of values are attributes of tensors, and of three sorts. *)
Theorem C118_three_sorts_of_attributes : forall M (e : benv M) n api, stands_for e false n (Member api) ->
  exists x, api = "torch.Tensor." ++ x /\ (In x kept_attributes \/ In x called_attributes \/ In x missing_attributes).
Proof.
  intros M e n api H. unfold stands_for in H. destruct (components e n) as [l|]; [|discriminate].
  destruct H as (_ & before & c & after & C & -> & [_ K] & _). 
  destruct (class_attribute c (last l "")) as [-> I]; [rewrite C; apply in_or_app; right; left; reflexivity|exact K|].
  exists (last l ""). split; [reflexivity|]. unfold tensor_attributes in I. apply in_app_or in I as [I|I]; [auto|]. apply in_app_or in I as [I|I]; auto.
Qed.
Print Assumptions C118_three_sorts_of_attributes.
Theorem C118_attributes_that_stay : forall t imps n x st p line s,
  let e := shipped_env t imps in let api := "torch.Tensor." ++ x in
  plain_file e -> plain_use e n -> parent st = Ok p -> ~ (exists f x k, p = Call f x k /\ field_is "func" (here st) = true) ->
  stands_for e false n (Member api) -> scope_body_index st (scopes s) = Ok line -> NoDup (dkeys (all_apis s)) ->
  In x kept_attributes -> min_mode t = false ->
  exists s', finish_attribute e n st s = Ok (Reply (VNode n), s') /\
    booked api api ("paddle.Tensor." ++ x) EffectSpec.Converted s s' /\ requested line [] s s' /\ shared s' = shared s.
Proof. intros. eapply member_kept; eassumption. Qed.
Print Assumptions C118_attributes_that_stay.
(** [v.x] becomes [v.x()]. *)
Theorem C118_attributes_that_become_calls : forall t imps n x st p line s v before last_ y,
  let e := shipped_env t imps in let api := "torch.Tensor." ++ x in
  plain_file e -> plain_use e n -> parent st = Ok p -> ~ (exists f x k, p = Call f x k /\ field_is "func" (here st) = true) ->
  stands_for e false n (Member api) -> scope_body_index st (scopes s) = Ok line -> NoDup (dkeys (all_apis s)) ->
  In x called_attributes -> source t n = v ++ "." ++ x -> plain_text v ->
  parse t (v ++ "." ++ x ++ "()") = Ok (before ++ [last_])%list -> expression_of last_ y -> In (kind_of y) for_attribute ->
  (no_room p -> for_the_line e before = []) ->
  exists s', finish_attribute e n st s = Ok (Reply (VNode y), s') /\
    booked api api ("paddle.Tensor." ++ x) EffectSpec.Converted s s' /\ requested line [ask e p before] s s' /\ shared s' = shared s.
Proof. intros. eapply member_called; eassumption. Qed.
Print Assumptions C118_attributes_that_become_calls.
Theorem C118_attributes_that_get_a_remark : forall t imps n x st p line s,
  let e := shipped_env t imps in let api := "torch.Tensor." ++ x in
  plain_file e -> plain_use e n -> parent st = Ok p -> ~ (exists f x k, p = Call f x k /\ field_is "func" (here st) = true) ->
  stands_for e false n (Member api) -> scope_body_index st (scopes s) = Ok line -> NoDup (dkeys (all_apis s)) ->
  In x missing_attributes ->
  exists s', finish_attribute e n st s = Ok (Reply (VNode n), s') /\
    booked api api (old_name api s) EffectSpec.NotConverted s s' /\ requested line [([], [remark api])] s s' /\ shared s' = shared s.
Proof. intros. eapply member_missing; eassumption. Qed.
Print Assumptions C118_attributes_that_get_a_remark.

(** *** Examples *)
Definition layer : node := Attribute (Attribute (Name "paddle") "nn") "Module".
Definition real_call : node := Call (Attribute (Name "v") "real") [] [].
Definition ex_tools : tools :=
  MkTools (fun n => PropertiesShipped.show_node n ++ String nl "")
    (fun s => if String.eqb s "paddle.nn.Module" then Ok [PropertiesShipped.line_of layer]
              else if String.eqb s "paddle.nn.Module.add" then Ok [PropertiesShipped.line_of (Attribute layer "add")]
              else if String.eqb s "v.real()" then Ok [PropertiesShipped.line_of real_call] else Raise "SyntaxError")
    (fun _ => "") [] false.
Definition ex_imports : ist := MkIst [("torch", "torch")] [] ["torch"] [] [] [] [].
Definition ex_e := shipped_env ex_tools ex_imports.
Definition assign (x n : node) : node := Other "Assign" [Many "targets" [x]; One "value" n].
Definition old_module : node := Attribute (Attribute (Name "torch") "nn") "Module".
Definition old_real : node := Attribute (Name "v") "real".
Definition old_shape : node := Attribute (Name "v") "shape".
Definition old_names : node := Attribute (Name "v") "names".
Definition old_doc : node := Attribute (Attribute (Name "torch") "chain_matmul") "__doc__".
Definition module_of (l : list node) : node := Other "Module" [Many "body" l].

(** [v.real = w] becomes [v.real() = w], which is not Python. *)
Theorem C118_assigned_attributes_refuted : exists s',
  basic_transform ex_e 100 (module_of [assign old_real (Name "w")]) PropertiesShipped.ex_state
  = Ok (module_of [assign real_call (Name "w")], s').
Proof. eexists. vm_compute. reflexivity. Qed.
Print Assumptions C118_assigned_attributes_refuted.

Lemma ex_plain : plain_file ex_e.
Proof.
  split.
  - intros h full. cbn [file_imports ex_e shipped_env ex_imports imports dget]. destruct (String.eqb_spec h "torch") as [->|_]; [intros [= <-]; split; [discriminate|reflexivity]|discriminate].
  - intros p [<-|[]]. reflexivity.
Qed.
Lemma ex_use f l : spelling ex_e f = Some l -> Forall plain l -> mem_str (hd "" l) bookkeeping = false -> plain_use ex_e f.
Proof.
  intros S F B l' E. rewrite S in E. injection E as <-. split; [exact F|]. intros (h & r & -> & I). cbn [hd] in B. apply mem_str_In in I. congruence.
Qed.
Ltac plain_list := repeat constructor; try discriminate; try reflexivity.
Lemma ex_package f h r l : spelling ex_e f = Some ("torch" :: h :: r) -> l = dotted ("torch" :: h :: r) -> stands_for ex_e false f (Package l).
Proof.
  intros S ->. unfold stands_for, components. cbn [file_imports ex_e shipped_env ex_imports torch_packages]. rewrite S. cbn [option_map resolved].
  split; [|reflexivity]. left. exists "torch", (h :: r). split; [left; reflexivity|]. split; [discriminate|reflexivity].
Qed.
Lemma ex_member x : known false ("torch.Tensor." ++ x) -> spelling ex_e (Attribute (Name "v") x) = Some ["v"; x] ->
  stands_for ex_e false (Attribute (Name "v") x) (Member ("torch.Tensor." ++ x)).
Proof.
  intros K S. unfold stands_for, components. cbn [file_imports ex_e shipped_env ex_imports torch_packages]. rewrite S.
  split.
  - intros [(p & rest & [<-|[]] & _ & H)|[H _]]; discriminate H.
  - exists [], "torch.Tensor", (tl classes). split; [reflexivity|]. split; [reflexivity|]. split; [|intros c' []].
    split; [|exact K]. apply own_tensor; [reflexivity|]. intros (c & [<-|[]] & H). discriminate H.
Qed.
Lemma ex_module : exists c r, attribute_lookup "torch.nn.Module" = LMatcher "torch.nn.Module" c r /\ r_matcher r = Some "ChangePrefixMatcher".
Proof. eexists _, _. split; [vm_compute; reflexivity|reflexivity]. Qed.
Lemma ex_chain : exists a r, get_api_matcher "torch.chain_matmul" = LMatcher a "Chain_MatmulMatcher" r /\ paddle_api (r_entry r) = None.
Proof. eexists _, _. split; [vm_compute; reflexivity|reflexivity]. Qed.
Lemma ex_unlisted : attribute_lookup "torch.nn.Module.add" = LNone /\ attribute_lookup "torch.chain_matmul.__doc__" = LNone.
Proof. vm_compute. split; reflexivity. Qed.
Lemma ex_known : in_attribute_mapping "torch.Tensor.real" = true /\ in_attribute_mapping "torch.Tensor.shape" = true /\ in_attribute_mapping "torch.Tensor.names" = true.
Proof. vm_compute. repeat split. Qed.
Definition ex_stack (n : node) : list frame :=
  [MkFrame n (At "value" 0); MkFrame (assign (Name "y") n) (At "body" 0); MkFrame (module_of [assign (Name "y") n]) (At "" 0)].
Example C118_nonvacuous :
  plain_file ex_e /\ (forall n, parent (ex_stack n) = Ok (assign (Name "y") n)) /\
  (forall n, scope_body_index (ex_stack n) (scopes PropertiesShipped.ex_inside) = Ok ([At "" 0], "body", 0)) /\
  (plain_use ex_e old_module /\ stands_for ex_e false old_module (Package "torch.nn.Module") /\
   exists a c r, attribute_lookup "torch.nn.Module" = LMatcher a c r /\ new_name ex_tools a r "paddle.nn.Module" /\ parse_expr ex_e "paddle.nn.Module" = Ok layer) /\
  (plain_use ex_e (Attribute old_module "add") /\ stands_for ex_e false (Attribute old_module "add") (Package ("torch.nn.Module" ++ "." ++ "add")) /\
   attribute_lookup "torch.nn.Module.add" = LNone /\ parse_expr ex_e "paddle.nn.Module.add" = Ok (Attribute layer "add")) /\
  (plain_use ex_e old_doc /\ stands_for ex_e false old_doc (Package ("torch.chain_matmul" ++ "." ++ "__doc__")) /\
   attribute_lookup "torch.chain_matmul.__doc__" = LNone /\
   exists a c r, get_api_matcher ("torch" ++ "." ++ "chain_matmul") = LMatcher a c r /\ paddle_api (r_entry r) = None /\
     ~ In c ["ChangePrefixMatcher"; "EinopsTorchMatcher"; "TransformersGenericMatcher"; "FAApplyRotaryEmbFuncMatcher"; "PaddleFlagMatcher"]) /\
  (plain_use ex_e old_shape /\ stands_for ex_e false old_shape (Member "torch.Tensor.shape")) /\
  (plain_use ex_e old_names /\ stands_for ex_e false old_names (Member "torch.Tensor.names")) /\
  (plain_use ex_e old_real /\ stands_for ex_e false old_real (Member "torch.Tensor.real") /\ source ex_tools old_real = "v" ++ "." ++ "real" /\
   parse ex_tools "v.real()" = Ok ([] ++ [PropertiesShipped.line_of real_call])%list /\ expression_of (PropertiesShipped.line_of real_call) real_call /\ In (kind_of real_call) for_attribute).
Proof.
  destruct ex_unlisted as [R2 R4]. destruct ex_known as (R5 & R6 & R7).
  split; [exact ex_plain|]. split; [reflexivity|]. split; [reflexivity|].
  split. { split; [eapply ex_use; [reflexivity|plain_list|reflexivity]|]. split; [eapply ex_package; reflexivity|].
    destruct ex_module as (c & r & R1 & R1'). exists "torch.nn.Module", c, r.
    split; [exact R1|]. split; [|reflexivity]. apply (name_moved ex_tools "torch.nn.Module" r "torch" "paddle" "nn.Module"); [exact R1'|reflexivity|reflexivity|reflexivity|exact torch_target]. }
  split. { split; [eapply ex_use; [reflexivity|plain_list|reflexivity]|]. split; [eapply ex_package; reflexivity|]. split; [exact R2|reflexivity]. }
  split. { split; [eapply ex_use; [reflexivity|plain_list|reflexivity]|]. split; [eapply ex_package; reflexivity|]. split; [exact R4|].
    change ("torch" ++ "." ++ "chain_matmul") with "torch.chain_matmul".
    destruct ex_chain as (a & r & R3 & R3'). exists a, "Chain_MatmulMatcher", r.
    split; [exact R3|]. split; [exact R3'|]. cbn. intuition discriminate. }
  split. { split; [eapply ex_use; [reflexivity|plain_list|reflexivity]|]. apply (ex_member "shape"); [exact R6|reflexivity]. }
  split. { split; [eapply ex_use; [reflexivity|plain_list|reflexivity]|]. apply (ex_member "names"); [exact R7|reflexivity]. }
  split; [eapply ex_use; [reflexivity|plain_list|reflexivity]|]. split; [apply (ex_member "real"); [exact R5|reflexivity]|].
  split; [reflexivity|]. split; [reflexivity|]. split; [constructor; reflexivity|left; reflexivity].
Qed.
