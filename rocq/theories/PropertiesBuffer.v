(** C153: parts of tensors, buffers and exported models. *)
From Verif Require Import PyStr PyStrFacts PyDict PyDictFacts Ast Args ArgsFacts UtilsFile TablesData Generate GenerateData GenerateRel GenerateRows GenericBridge FlagSpec FlagFacts DatasetSpec DatasetFacts DatasetCalls OutSpec OutFacts LrSpec LrFacts PropertiesLr AdamFacts PropertiesParallel BufferSpec.
Opaque api_mapping generators unique_name.

Lemma select_runs c d i x y z : dget String.eqb "input" d = Some x -> dget String.eqb "dim" d = Some y -> dget String.eqb "index" d = Some z ->
  exists q s, exec c g_SelectMatcher (st [] d None i false) = Ret (Some (Text q), s) /\ render q = select_code (render x) (render y) (render z).
Proof. intros X Y Z. eexists; eexists; split; [opened g_SelectMatcher; unfold st; go|unfold select_code; txo]. Qed.
Lemma nonzero_runs c d i x : dget String.eqb "input" d = Some x ->
  exists q s, exec c g_IsNonzeroMatcher (st [] d None i false) = Ret (Some (Text q), s) /\ render q = nonzero_code (render x).
Proof. intros X. eexists; eexists; split; [opened g_IsNonzeroMatcher; unfold st; go|unfold nonzero_code, quote; txo]. Qed.
Lemma buffer_runs c d i x y : dget String.eqb "buffer" d = Some x -> dget String.eqb "dtype" d = Some y ->
  exists q s, exec c g_FromBufferMatcher (st [] d None i false) = Ret (Some (Text q), s) /\ render q = buffer_code (render x) (render y).
Proof. intros X Y. eexists; eexists; split; [opened g_FromBufferMatcher; unfold st; go|unfold buffer_code; txo]. Qed.
Lemma export_runs c d i x y : dget String.eqb "model" d = Some x -> dget String.eqb "f" d = Some y ->
  exists q s, exec c g_OnnxExportMatcher (st [] d None i false) = Ret (Some (Text q), s) /\ render q = export_code (render x) (render y) /\ utils s = true.
Proof. intros X Y. eexists; eexists; split; [opened g_OnnxExportMatcher; unfold st; go|split; [unfold export_code; txo|reflexivity]]. Qed.
Lemma narrow_runs c d i x y z l o : dget String.eqb "input" d = Some x -> dget String.eqb "dim" d = Some y -> dget String.eqb "start" d = Some z -> dget String.eqb "length" d = Some l ->
  match dget String.eqb "out" d with Some p => o = render p | None => o = "None" end ->
  exists q s m, exec c g_NarrowCopyMatcher (st [] d None i false) = Ret (Some (Text q), s) /\
    render q = narrow_code ("start" ++ m) (render x) (render y) (render z) (render l) o.
Proof.
  intros X Y Z L O. destruct (unique_starts i "start") as (m & M).
  destruct (dget String.eqb "out" d) as [p|] eqn:P; subst o; (eexists; eexists; exists m; split;
    [opened g_NarrowCopyMatcher; unfold st; eapply r_seq; [go|]; eapply r_seq; [go|]; eapply r_seq; [go|]; named; rewrite M; go|unfold narrow_code; txo]).
Qed.

Theorem C153_select :
  forall args kwargs t x y z i,
    reads_as "torch.select" args kwargs t -> passes t "input" x -> passes t "dim" y -> passes t "index" z ->
    exists q u, answer "torch.select" None args kwargs i = Some (Ret (Converted q u)) /\ render q = select_code x y z.
Proof.
  intros args kwargs t x y z i R X Y Z.
  assert (J : exists s r, find (fun r => String.eqb (r_name r) "torch.select") api_mapping = Some r /\ generator r = Some (s, g_SelectMatcher)) by (eexists; eexists; split; vm_compute; reflexivity).
  destruct J as (s & r & Fr & G). destruct (answer_line _ r s _ args kwargs t i Fr G R) as (c & _ & _ & H).
  destruct (select_runs c (start t) i _ _ _ (got _ args kwargs t R "input" x ltac:(discriminate) X) (got _ args kwargs t R "dim" y ltac:(discriminate) Y) (got _ args kwargs t R "index" z ltac:(discriminate) Z)) as (q & s1 & B & W).
  rewrite !render_one in W. cbn [content] in W. exists q, (utils s1). split; [eapply H; [exact B|rewrite W; reflexivity]|exact W].
Qed.
Print Assumptions C153_select.
Theorem C153_narrow :
  forall args kwargs t x y z l o i,
    reads_as "torch.narrow_copy" args kwargs t -> passes t "input" x -> passes t "dim" y -> passes t "start" z -> passes t "length" l ->
    (passes t "out" o \/ (forall p, ~ passes t "out" p) /\ o = "None") ->
    exists q u v, answer "torch.narrow_copy" None args kwargs i = Some (Ret (Converted q u)) /\ render q = narrow_code ("start" ++ v) x y z l o.
Proof.
  intros args kwargs t x y z l o i R X Y Z L O.
  assert (J : exists s r, find (fun r => String.eqb (r_name r) "torch.narrow_copy") api_mapping = Some r /\ generator r = Some (s, g_NarrowCopyMatcher) /\ unsupport_args (r_entry r) = []) by (row_found; reflexivity).
  destruct J as (s & r & Fr & G & Us). pose proof (known_star _ r args kwargs t Fr Us R) as S. destruct (answer_line _ r s _ args kwargs t i Fr G R) as (c & _ & _ & H).
  destruct (narrow_runs c (start t) i _ _ _ _ o (got _ args kwargs t R "input" x ltac:(discriminate) X) (got _ args kwargs t R "dim" y ltac:(discriminate) Y) (got _ args kwargs t R "start" z ltac:(discriminate) Z) (got _ args kwargs t R "length" l ltac:(discriminate) L)) as (q & s1 & m & B & W).
  { destruct O as [P|[P ->]].
    - rewrite (got _ args kwargs t R "out" o ltac:(discriminate) P). symmetry. apply render_one.
    - rewrite (not_got _ args kwargs t R S "out" P). reflexivity. }
  rewrite !render_one in W. cbn [content] in W. exists q, (utils s1), m. split; [eapply H; [exact B|rewrite W; reflexivity]|exact W].
Qed.
Print Assumptions C153_narrow.
Theorem C153_nonzero :
  forall args kwargs t x i,
    reads_as "torch.is_nonzero" args kwargs t -> passes t "input" x ->
    exists q u, answer "torch.is_nonzero" None args kwargs i = Some (Ret (Converted q u)) /\ render q = nonzero_code x.
Proof.
  intros args kwargs t x i R X.
  assert (J : exists s r, find (fun r => String.eqb (r_name r) "torch.is_nonzero") api_mapping = Some r /\ generator r = Some (s, g_IsNonzeroMatcher)) by (eexists; eexists; split; vm_compute; reflexivity).
  destruct J as (s & r & Fr & G). destruct (answer_line _ r s _ args kwargs t i Fr G R) as (c & _ & _ & H).
  destruct (nonzero_runs c (start t) i _ (got _ args kwargs t R "input" x ltac:(discriminate) X)) as (q & s1 & B & W).
  rewrite !render_one in W. cbn [content] in W. exists q, (utils s1). split; [eapply H; [exact B|rewrite W; reflexivity]|exact W].
Qed.
Print Assumptions C153_nonzero.
Theorem C153_buffer :
  forall args kwargs t x y i,
    reads_as "torch.frombuffer" args kwargs t -> passes t "buffer" x -> passes t "dtype" y ->
    exists q u, answer "torch.frombuffer" None args kwargs i = Some (Ret (Converted q u)) /\ render q = buffer_code x y.
Proof.
  intros args kwargs t x y i R X Y.
  assert (J : exists s r, find (fun r => String.eqb (r_name r) "torch.frombuffer") api_mapping = Some r /\ generator r = Some (s, g_FromBufferMatcher)) by (eexists; eexists; split; vm_compute; reflexivity).
  destruct J as (s & r & Fr & G). destruct (answer_line _ r s _ args kwargs t i Fr G R) as (c & _ & _ & H).
  destruct (buffer_runs c (start t) i _ _ (got _ args kwargs t R "buffer" x ltac:(discriminate) X) (got _ args kwargs t R "dtype" y ltac:(discriminate) Y)) as (q & s1 & B & W).
  rewrite !render_one in W. cbn [content] in W. exists q, (utils s1). split; [eapply H; [exact B|rewrite W; reflexivity]|exact W].
Qed.
Print Assumptions C153_buffer.
(** So a call that asks for a part of the buffer becomes the code of the call that asks for all of it. *)
Theorem C153_part_refuted :
  forall args kwargs t args' kwargs' t' x y k n i, In k ["count"; "offset"; "requires_grad"] ->
    reads_as "torch.frombuffer" args kwargs t -> passes t "buffer" x -> passes t "dtype" y -> passes t k n ->
    reads_as "torch.frombuffer" args' kwargs' t' -> passes t' "buffer" x -> passes t' "dtype" y -> (forall p, ~ passes t' k p) ->
    exists q u q' u', answer "torch.frombuffer" None args kwargs i = Some (Ret (Converted q u)) /\ answer "torch.frombuffer" None args' kwargs' i = Some (Ret (Converted q' u')) /\ render q = render q'.
Proof.
  intros args kwargs t args' kwargs' t' x y k n i _ R X Y _ R' X' Y' _. destruct (C153_buffer _ _ t x y i R X Y) as (q & u & A & B). destruct (C153_buffer _ _ t' x y i R' X' Y') as (q' & u' & A' & B').
  exists q, u, q', u'. split; [exact A|]. split; [exact A'|]. rewrite B, B'. reflexivity.
Qed.
Print Assumptions C153_part_refuted.
Theorem C153_export :
  forall args kwargs t x y i,
    reads_as "torch.onnx.export" args kwargs t -> passes t "model" x -> passes t "f" y ->
    exists q, answer "torch.onnx.export" None args kwargs i = Some (Ret (Converted q true)) /\ render q = export_code x y.
Proof.
  intros args kwargs t x y i R X Y.
  assert (J : exists s r, find (fun r => String.eqb (r_name r) "torch.onnx.export") api_mapping = Some r /\ generator r = Some (s, g_OnnxExportMatcher)) by (eexists; eexists; split; vm_compute; reflexivity).
  destruct J as (s & r & Fr & G). destruct (answer_line _ r s _ args kwargs t i Fr G R) as (c & _ & _ & H).
  destruct (export_runs c (start t) i _ _ (got _ args kwargs t R "model" x ltac:(discriminate) X) (got _ args kwargs t R "f" y ltac:(discriminate) Y)) as (q & s1 & B & W & U).
  rewrite !render_one in W. cbn [content] in W. exists q. split; [|exact W]. pose proof (H q s1 _ B (eq_trans W (eq_refl _))) as A. rewrite U in A. exact A.
Qed.
Print Assumptions C153_export.
Transparent api_mapping generators unique_name.
Example C153_nonvacuous :
  (exists t, reads_as "torch.select" [MkExpr false false "a"; MkExpr false false "0"] [MkKw (Some "index") (MkExpr false false "n")] t /\ passes t "input" "a" /\ passes t "dim" "0" /\ passes t "index" "n") /\
  (exists t, reads_as "torch.narrow_copy" [MkExpr false false "a"; MkExpr false false "0"; MkExpr false false "s"; MkExpr false false "l"] [MkKw (Some "out") (MkExpr false false "n")] t /\ passes t "input" "a" /\ passes t "dim" "0" /\ passes t "start" "s" /\ passes t "length" "l" /\ passes t "out" "n") /\
  (exists t, reads_as "torch.narrow_copy" [MkExpr false false "a"; MkExpr false false "0"; MkExpr false false "s"; MkExpr false false "l"] [] t /\ passes t "length" "l" /\ (forall p, ~ passes t "out" p)) /\
  (exists t, reads_as "torch.is_nonzero" [MkExpr false false "a"] [] t /\ passes t "input" "a") /\
  (exists t, reads_as "torch.frombuffer" [MkExpr false false "b"] [MkKw (Some "dtype") (MkExpr false false "d"); MkKw (Some "count") (MkExpr false false "n")] t /\ passes t "buffer" "b" /\ passes t "dtype" "d" /\ passes t "count" "n") /\
  (exists t, reads_as "torch.frombuffer" [MkExpr false false "b"] [MkKw (Some "dtype") (MkExpr false false "d")] t /\ passes t "buffer" "b" /\ passes t "dtype" "d" /\ (forall p, ~ passes t "count" p)) /\
  (exists t, reads_as "torch.onnx.export" [MkExpr false false "m"] [MkKw (Some "f") (MkExpr false false "f"); MkKw (Some "opset_version") (MkExpr false false "n")] t /\ passes t "model" "m" /\ passes t "f" "f").
Proof.
  split; [|split; [|split; [|split; [|split; [|split]]]]]; (eexists; split; [eexists; split; vm_compute; reflexivity|]).
  - do 2 (split; [there|]). there.
  - do 4 (split; [there|]). there.
  - split; [there|nowhere].
  - there.
  - do 2 (split; [there|]). there.
  - do 2 (split; [there|]). nowhere.
  - split; there.
Qed.
