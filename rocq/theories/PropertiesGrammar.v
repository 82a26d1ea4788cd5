(** C78, C79: generated code is a program, and the names it binds. *)
From Verif Require Import PyStr PyDict PyStrFacts UtilsFile Args ArgsSpec TablesData
  Generate GenerateData GenerateRows GenerateSpec GenerateCheck GenerateCalls GenerateFacts Grammar GrammarBalance GrammarRows
  GenerateExact Names PropertiesGenerate.
Opaque api_mapping generators.

(** ** C78: the code generated for a regular call is a list of Python statements that
    ends with an expression, whatever the expressions given as arguments are, with the
    exceptions in the tables of Grammar.v. *)
Theorem C78_generated_code_is_a_program :
  forall operand expression r g recv args kwargs i q u,
    In r api_mapping -> generator r = Some g -> regular r recv args kwargs ->
    well_written operand expression r recv args kwargs ->
    paddle_nodes r g recv args kwargs i = Ret (Converted q u) ->
    exists ns, program operand expression ns (render q).
Proof.
  intros operand expression r g recv args kwargs i q u I G R W E.
  destruct (generated_program operand expression r g recv args kwargs i q u I G R W E) as (ns & P & _). exists ns. exact P.
Qed.
Print Assumptions C78_generated_code_is_a_program.

(** The grammar excludes something: parentheses match. *)
Theorem C78_programs_are_balanced :
  forall (operand expression : string -> Prop) ns c,
    (forall v, operand v -> balanced v) -> (forall v, expression v -> balanced v) ->
    program operand expression ns c -> balanced c.
Proof.
  intros operand expression ns c O X P. exact (program_fine operand expression O X ns c P).
Qed.
Print Assumptions C78_programs_are_balanced.

(** No entry of the tables of exceptions is superfluous.  For [stripped]: a call with a
    balanced argument whose code is no program, whatever balanced texts are accepted as
    expressions.  For [tight]: the text of the argument is next to an operator. *)
Theorem C78_exceptions_are_real :
  (forall n ks k, In (n, ks) stripped -> In k ks ->
    exists r g recv kwargs v q u,
      In r api_mapping /\ r_name r = n /\ generator r = Some g /\ regular r recv [] kwargs /\
      supplies (r_entry r) [] kwargs k v /\ balanced v /\
      paddle_nodes r g recv [] kwargs [] = Ret (Converted q u) /\
      forall (operand expression : string -> Prop) ns,
        (forall w, operand w -> balanced w) -> (forall w, expression w -> balanced w) ->
        ~ program operand expression ns (render q)) /\
  (forall n ks k, In (n, ks) tight -> In k ks ->
    exists r g recv kwargs q u,
      In r api_mapping /\ r_name r = n /\ generator r = Some g /\ regular r recv [] kwargs /\
      supplies (r_entry r) [] kwargs k "sample" /\
      paddle_nodes r g recv [] kwargs [] = Ret (Converted q u) /\ adjoined "sample" (render q)).
Proof.
  split; intros n ks k I J.
  - destruct (witnessed_ok unbalanced stripped n ks k stripped_witnessed I J) as (r & g & recv & kwargs & v & q & u & H1 & H2 & H3 & H4 & H5 & H6 & H7 & H8 & H9).
    unfold unbalanced in H9. destruct (closes None 0 v) eqn:V; [|discriminate].
    apply Bool.negb_true_iff in H9.
    exists r, g, recv, kwargs, v, q, u. split; [exact H1|]. split; [exact H2|]. split; [exact H3|]. split; [exact H4|].
    split; [exact H5|]. split; [exact V|]. split; [exact H8|]. intros operand expression ns O X P.
    pose proof (C78_programs_are_balanced _ _ _ _ O X P) as B. unfold balanced in B. congruence.
  - destruct (witnessed_ok adjoinedb tight n ks k tight_witnessed I J) as (r & g & recv & kwargs & v & q & u & H1 & H2 & H3 & H4 & H5 & H6 & H7 & H8 & H9).
    pose proof (adjoinedb_sample _ _ _ H9). subst v. apply adjoinedb_ok in H9.
    exists r, g, recv, kwargs, q, u. split; [exact H1|]. split; [exact H2|]. split; [exact H3|]. split; [exact H4|].
    split; [exact H5|]. split; [exact H8|exact H9].
Qed.
Print Assumptions C78_exceptions_are_real.

(** What the exceptions look like: operators of an argument are torn apart, a closing
    parenthesis is lost, a part of a name is replaced, a call is assigned to. *)
Theorem C78_mishandled_arguments_refuted :
  rewrite "torch.nn.functional.softmin" None ["a + b"] [("dim", "0")] =
    Some (Ret ("paddle.nn.functional.softmax(x=-a + b, axis=0)", false)) /\
  rewrite "torch.scalar_tensor" None ["s"] [("requires_grad", "f(x)")] =
    Some (Ret ("
out_0 = paddle.to_tensor(data=s, dtype=paddle.float32)
out_0.stop_gradient = not f(x
out_0
", false)) /\
  rewrite "torch.cpu.set_device" None ["make_cuda()"] [] =
    Some (Ret ("paddle.device.set_device(device=make_gpu())", false)) /\
  (exists t u,
     rewrite "torch.index_copy" None ["f(x)"; "d"; "i"; "s"] [] = Some (Ret (t, u)) /\
     inside "
f(x), new_t = f(x).reshape" t).
Proof.
  split; [vm_compute; reflexivity|]. split; [vm_compute; reflexivity|]. split; [vm_compute; reflexivity|].
  eexists _, _. split; [vm_compute; reflexivity|]. apply contains_spec. vm_compute. reflexivity.
Qed.
Print Assumptions C78_mishandled_arguments_refuted.

(** ** C79: the statements placed before the converted statement bind no name that the
    program may use already: only names made for this call, none of which is made again for
    a later one (C115), with the exceptions in [clobbered]. *)
Theorem C79_only_generated_names_bound :
  forall operand expression r g recv args kwargs i q u,
    In r api_mapping -> generator r = Some g -> regular r recv args kwargs ->
    well_written operand expression r recv args kwargs ->
    paddle_nodes r g recv args kwargs i = Ret (Converted q u) ->
    exists ns, program operand expression ns (render q) /\
      forall n, In n ns ->
        (exists k, drawn i (paddle_counters r g recv args kwargs i) k n) \/ listed clobbered r n.
Proof. exact generated_program. Qed.
Print Assumptions C79_only_generated_names_bound.

Theorem C79_exceptions_are_real :
  forall m ns n, In (m, ns) clobbered -> In n ns ->
    exists r g recv kwargs q u,
      In r api_mapping /\ r_name r = m /\ generator r = Some g /\ regular r recv [] kwargs /\
      paddle_nodes r g recv [] kwargs [] = Ret (Converted q u) /\ assigns n (render q).
Proof. exact clobbered_ok. Qed.
Print Assumptions C79_exceptions_are_real.

Theorem C79_variable_overwritten_refuted :
  rewrite "torch.linalg.slogdet" None ["res"] [("out", "o")] =
    Some (Ret ("
res = paddle.linalg.slogdet(res)
paddle.assign(res[0], o[0]), paddle.assign(res[1], o[1])
", false)).
Proof. vm_compute. reflexivity. Qed.
Print Assumptions C79_variable_overwritten_refuted.

(** ** Concrete cases *)
Definition some_operands (v : string) : Prop := In v ["obj"; "f(x)"; "2"].
Definition some_expressions (v : string) : Prop := In v ["f(x)"; "a or b"; "2"].
Definition a_call := [("mat", "f(x)"); ("vec", "a or b"); ("alpha", "2")].
Lemma example_facts :
  match row_named "torch.Tensor.addmv" with
  | Some r =>
      match generator r with
      | Some g =>
          match paddle_nodes r g (Some "obj") [] (named a_call) [] with
          | Ret (Converted q u) =>
              an_object r = Some "obj" /\ regularb r a_call = true /\
              listedb tight r "mat" = false /\ listedb tight r "vec" = false /\
              mishandled r "mat" = false /\ mishandled r "vec" = false /\ mishandled r "alpha" = false /\
              render q = "
paddle.add(1*obj, 2*paddle.mm(f(x), a or b))
"
          | _ => False
          end
      | None => False
      end
  | None => False
  end.
Proof. vm_compute. repeat split. Qed.
Example C78_nonvacuous :
  exists r g q u,
    In r api_mapping /\ generator r = Some g /\ regular r (Some "obj") [] (named a_call) /\
    well_written some_operands some_expressions r (Some "obj") [] (named a_call) /\
    paddle_nodes r g (Some "obj") [] (named a_call) [] = Ret (Converted q u) /\
    render q = "
paddle.add(1*obj, 2*paddle.mm(f(x), a or b))
".
Proof.
  pose proof example_facts as H. destruct (row_named "torch.Tensor.addmv") as [r|] eqn:R; [|contradiction].
  destruct (generator r) as [g|] eqn:G; [|contradiction].
  destruct (paddle_nodes r g (Some "obj") [] (named a_call) []) as [[q u| | |]|] eqn:P; try contradiction.
  destruct H as (H1 & H2 & T1 & T2 & M1 & M2 & M3 & H5). apply row_named_in in R. destruct R as [I _].
  apply regularb_ok in H2. rewrite H1 in H2.
  exists r, g, q, u. split; [exact I|]. split; [exact G|]. split; [exact H2|]. split; [|split; [exact P|exact H5]].
  unfold mishandled in M1, M2, M3.
  assert (B : forall k v, In (Some k, v) (bindings (position_args (r_entry r)) [] (named a_call)) ->
              k = "mat" /\ v = "f(x)" \/ k = "vec" /\ v = "a or b" \/ k = "alpha" /\ v = "2").
  { unfold bindings. cbn [map]. rewrite combine_nil. intros k v [X|[X|[X|[]]]]; injection X as <- <-; tauto. }
  split.
  - intros k v X. rewrite <- !listedb_iff. apply B in X. destruct X as [[-> ->]|[[-> ->]|[-> ->]]].
    + split; [split; [split; [reflexivity|]|]; apply mem_str_false; reflexivity|]. split; [reflexivity|]. split; [cbn; tauto|].
      rewrite T1. destruct (listedb stripped r "mat"); [discriminate|]. rewrite M1. repeat split; discriminate.
    + split; [split; [split; [reflexivity|]|]; apply mem_str_false; reflexivity|]. split; [reflexivity|]. split; [cbn; tauto|].
      rewrite T2. destruct (listedb stripped r "vec"); [discriminate|]. rewrite M2. repeat split; discriminate.
    + split; [split; [split; [reflexivity|]|]; apply mem_str_false; reflexivity|]. split; [reflexivity|]. split; [cbn; tauto|].
      destruct (listedb stripped r "alpha"); [discriminate|]. rewrite M3.
      split; [intros _; cbn; tauto|]. split; discriminate.
  - intros v X. injection X as <-. split; [cbn; tauto|reflexivity].
Qed.
(** A generated name, bound by code that the theorems cover. *)
Definition other_operands (v : string) : Prop := v = "f(x)".
Definition other_call := [("input", "f(x)")].
Lemma other_facts :
  match row_named "torch.adjoint" with
  | Some r =>
      match generator r with
      | Some g =>
          match paddle_nodes r g None [] (named other_call) [] with
          | Ret (Converted q u) =>
              an_object r = None /\ regularb r other_call = true /\ mishandled r "input" = false /\
              assignsb "perm_0" (render q) = true /\
              number (paddle_counters r g None [] (named other_call) []) "perm" = 1
          | _ => False
          end
      | None => False
      end
  | None => False
  end.
Proof. vm_compute. repeat split. Qed.
Example C79_nonvacuous :
  exists r g q u,
    In r api_mapping /\ generator r = Some g /\ regular r None [] (named other_call) /\
    well_written other_operands other_operands r None [] (named other_call) /\
    paddle_nodes r g None [] (named other_call) [] = Ret (Converted q u) /\
    assigns "perm_0" (render q) /\ drawn [] (paddle_counters r g None [] (named other_call) []) "perm" "perm_0".
Proof.
  pose proof other_facts as H. destruct (row_named "torch.adjoint") as [r|] eqn:R; [|contradiction].
  destruct (generator r) as [g|] eqn:G; [|contradiction].
  destruct (paddle_nodes r g None [] (named other_call) []) as [[q u| | |]|] eqn:P; try contradiction.
  destruct H as (H1 & H2 & H3 & H4 & H5). apply row_named_in in R. destruct R as [I _].
  apply regularb_ok in H2. rewrite H1 in H2.
  exists r, g, q, u. split; [exact I|]. split; [exact G|]. split; [exact H2|]. split; [|split; [exact P|split]].
  - split; [|discriminate]. intros k v X. rewrite <- !listedb_iff. unfold bindings in X. cbn [map] in X. rewrite combine_nil in X.
    destruct X as [X|[]]. injection X as <- <-.
    split; [split; [split; [reflexivity|]|]; apply mem_str_false; reflexivity|]. split; [reflexivity|]. split; [reflexivity|].
    unfold mishandled in H3. destruct (listedb stripped r "input"); [discriminate|]. rewrite H3.
    split; [intros _; reflexivity|]. split; discriminate.
  - apply assignsb_ok, H4.
  - exists 0. rewrite H5. split; [split; repeat constructor|reflexivity].
Qed.
