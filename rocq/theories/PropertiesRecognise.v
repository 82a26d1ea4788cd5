(** What is recognised as a use of an API (C82). *)
From Coq Require Import Lia.
From Verif Require Import PyStr PyStrFacts PyDict TablesData Lookup Ast ImportPass Walk BasicPass RecogniseSpec RecogniseFacts.
Opaque api_mapping attribute_mapping alias_mapping wildcard_mapping matcher_classes torch_package_mapping.

(** ** C82 *)
Theorem C82_calls_recognised_exactly : forall M (e : benv M) f args kws st s,
  plain_file e -> plain_use e f ->
  exists r, stands_for e true f r /\
    match r with
    | Package api => exists l, spelling e f = Some l /\ finish_call e f args kws st s = visit_torch_call e f args kws api (dotted l) st s
    | Member api => exists l, spelling e f = Some l /\ finish_call e f args kws st s = trans_class_method e f args kws api (dotted l) st (recognise api s)
    | Nothing => finish_call e f args kws st s = Ok (Reply (VNode (Call f args kws)), s)
    end.
Proof. intros M e f args kws st s PF. apply call_recognised, PF. Qed.
Print Assumptions C82_calls_recognised_exactly.

Theorem C82_attributes_recognised_exactly : forall M (e : benv M) n st s p,
  plain_file e -> plain_use e n ->
  parent st = Ok p -> ~ (exists f a k, p = Call f a k /\ field_is "func" (here st) = true) ->
  exists r, stands_for e false n r /\
    match r with
    | Package api => exists l, spelling e n = Some l /\ finish_attribute e n st s = visit_torch_attribute e n api (dotted l) st s
    | Member api => exists l, spelling e n = Some l /\ finish_attribute e n st s = trans_class_attribute e n api (dotted l) st (recognise api s)
    | Nothing => finish_attribute e n st s = Ok (Reply (VNode n), s)
    end.
Proof. intros M e n st s p PF PU PP NF. eapply attribute_recognised; eassumption. Qed.
Print Assumptions C82_attributes_recognised_exactly.

(** A use has one reading only. *)
Theorem C82_one_reading : forall M (e : benv M) called n r r',
  stands_for e called n r -> stands_for e called n r' -> r = r'.
Proof. intros. eapply stands_for_functional; eassumption. Qed.
Print Assumptions C82_one_reading.

(** A file with [import torch] and [from torch.nn import functional as F]. *)
Definition ex_env : benv nat :=
  MkBenv nat (MkIst [("torch", "torch"); ("F", "torch.nn.functional")] [] ["torch"] [] [] [] []) (fun _ _ => false) (fun _ => false) (fun s => Ok (Name s))
    (fun m _ w => Ok (None, [], w)) (fun m n _ w => Ok (ANothing, [], w)) (fun m a k _ w => Ok (ANothing, (a, k), [], w))
    (fun m f a k _ w => Ok (ANothing, (a, k), [], w)).
Lemma ex_plain : plain_file ex_env.
Proof.
  split.
  - intros h full. cbn [file_imports ex_env imports dget]. destruct (String.eqb_spec h "torch") as [->|_]; [intros [= <-]; split; [discriminate|reflexivity]|].
    destruct (String.eqb_spec h "F") as [->|_]; [intros [= <-]; split; [discriminate|reflexivity]|discriminate].
  - intros p [<-|[]]. reflexivity.
Qed.
Fixpoint path_node (h : string) (l : list string) : node :=
  match l with [] => Name h | a :: r => Attribute (path_node h r) a end.
Lemma ex_use f l : spelling ex_env f = Some l -> Forall plain l -> mem_str (hd "" l) bookkeeping = false -> plain_use ex_env f.
Proof.
  intros S F B l' E. rewrite S in E. injection E as <-. split; [exact F|]. intros (h & r & -> & I). cbn [hd] in B. apply mem_str_In in I. congruence.
Qed.
Ltac plain_list := repeat constructor; try discriminate; try reflexivity.
(** [F.relu(x)], [x.add(y)], [self.net.weight.add_(y)], [x.foo()]. *)
Definition F_relu : node := Attribute (Name "F") "relu".
Definition x_add : node := Attribute (Name "x") "add".
Definition deep_add : node := Attribute (Attribute (Attribute (Name "net") "weight") "data") "add_".
Definition x_foo : node := Attribute (Name "x") "foo".
Lemma known_add : in_api_mapping "torch.Tensor.add" = true /\ in_api_mapping "x.add" = false /\ in_api_mapping "torch.Tensor.add_" = true /\
  in_api_mapping "net.weight.data.add_" = false /\ in_api_mapping "x.foo" = false /\
  existsb in_api_mapping (map (fun c => c ++ ".foo") classes) = false.
Proof. vm_compute. repeat split. Qed.
Lemma not_in_torch (l : list string) : hd "" l <> "torch" -> ~ in_torch ex_env l.
Proof. intros N (p & rest & [<-|[]] & _ & ->). apply N. reflexivity. Qed.
Example C82_nonvacuous :
  plain_file ex_env /\ plain_use ex_env F_relu /\ plain_use ex_env x_add /\ plain_use ex_env deep_add /\ plain_use ex_env x_foo /\
  stands_for ex_env true F_relu (Package "torch.nn.functional.relu") /\ stands_for ex_env true x_add (Member "torch.Tensor.add") /\
  stands_for ex_env true deep_add (Member "torch.Tensor.add_") /\ stands_for ex_env true x_foo Nothing.
Proof.
  destruct known_add as (K1 & K2 & K3 & K4 & K5 & K6).
  assert (NS : ~ of_self ["x"; "add"]) by (intros (c & [<-|[]] & E); discriminate).
  split; [exact ex_plain|]. split; [eapply ex_use; [reflexivity|plain_list|reflexivity]|]. split; [eapply ex_use; [reflexivity|plain_list|reflexivity]|].
  split; [eapply ex_use; [reflexivity|plain_list|reflexivity]|]. split; [eapply ex_use; [reflexivity|plain_list|reflexivity]|].
  split; [|split; [|split]].
  - split; [|reflexivity]. left. exists "torch", ["nn"; "functional"; "relu"]. split; [left; reflexivity|]. split; [discriminate|reflexivity].
  - split; [intros [H|[_ H]]; [apply not_in_torch in H; [exact H|discriminate]|cbn in H; congruence]|].
    exists [], "torch.Tensor", (tl classes). split; [reflexivity|]. split; [reflexivity|]. split; [split; [apply own_tensor; [reflexivity|exact NS]|exact K1]|intros c' []].
  - split; [intros [H|[_ H]]; [apply not_in_torch in H; [exact H|discriminate]|cbn in H; congruence]|].
    exists [], "torch.Tensor", (tl classes). split; [reflexivity|]. split; [reflexivity|].
    split; [split; [apply (deep_tensor true _ "weight"); [cbn; repeat constructor|left; reflexivity|right; left; reflexivity]|exact K3]|intros c' []].
  - split; [intros [H|[_ H]]; [apply not_in_torch in H; [exact H|discriminate]|cbn in H; congruence]|].
    intros c I [_ K]. unfold known in K.
    assert (Z : existsb in_api_mapping (map (fun c => c ++ ".foo") classes) = true).
    { apply existsb_exists. exists (c ++ ".foo"). split; [apply (in_map (fun c => c ++ ".foo")), I|exact K]. }
    congruence.
Qed.

(** The name of a variable decides: the methods of a tensor called [itself] are not
    recognised, those of one called [other] are. *)
Lemma known_view : in_api_mapping "torch.nn.Module.view" = false /\ in_api_mapping "torch.optim.Optimizer.view" = false /\
  in_api_mapping "torch.Tensor.view" = true /\ in_api_mapping "itself.view" = false /\ in_api_mapping "other.view" = false.
Proof. vm_compute. repeat split. Qed.
Theorem C82_variable_named_like_self_refuted : exists M (e : benv M) x y m args,
  plain_file e /\ plain_use e (Attribute (Name x) m) /\ plain_use e (Attribute (Name y) m) /\
  dget String.eqb x (imports (file_imports e)) = None /\ dget String.eqb y (imports (file_imports e)) = None /\
  stands_for e true (Attribute (Name x) m) (Member ("torch.Tensor." ++ m)) /\
  stands_for e true (Attribute (Name y) m) Nothing /\
  forall st s, finish_call e (Attribute (Name y) m) args [] st s = Ok (Reply (VNode (Call (Attribute (Name y) m) args [])), s).
Proof.
  exists nat, ex_env, "other", "itself", "view", [Name "n"].
  assert (P : plain_use ex_env (Attribute (Name "itself") "view")) by (eapply ex_use; [reflexivity|plain_list|reflexivity]).
  destruct known_view as (K1 & K2 & K3 & K4 & K5).
  assert (NS : ~ of_self ["other"; "view"]) by (intros (c & [<-|[]] & E); discriminate).
  assert (SS : of_self ["itself"; "view"]) by (exists "itself"; split; [left|]; reflexivity).
  assert (N : stands_for ex_env true (Attribute (Name "itself") "view") Nothing).
  { split; [intros [H|[_ H]]; [apply not_in_torch in H; [exact H|discriminate]|cbn in H; congruence]|].
    intros c _ [MB K]. unfold known in K. cbn [last append resolved] in MB, K.
    change (last _ "") with "view" in K.
    change (resolved ex_env ["itself"; "view"]) with ["itself"; "view"] in MB.
    inversion MB; subst; try contradiction; try (cbn in K; congruence); exfalso; cbn in *; lia. }
  split; [exact ex_plain|]. split; [eapply ex_use; [reflexivity|plain_list|reflexivity]|]. split; [exact P|].
  split; [reflexivity|]. split; [reflexivity|]. split; [|split; [exact N|]].
  - split; [intros [H|[_ H]]; [apply not_in_torch in H; [exact H|discriminate]|cbn in H; congruence]|].
    exists [], "torch.Tensor", (tl classes). split; [reflexivity|]. split; [reflexivity|]. split; [split; [apply own_tensor; [reflexivity|exact NS]|exact K3]|intros c' []].
  - intros st s. destruct (C82_calls_recognised_exactly nat ex_env (Attribute (Name "itself") "view") [Name "n"] [] st s ex_plain P) as (r & R & H).
    rewrite (C82_one_reading _ _ _ _ _ _ R N) in H. exact H.
Qed.
Print Assumptions C82_variable_named_like_self_refuted.
