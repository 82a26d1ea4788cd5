(** C159: calls that are handed to a helper. *)
From Verif Require Import PyStr PyStrFacts PyDict PyDictFacts Ast Args ArgsFacts UtilsFile TablesData Generate GenerateData GenerateRel GenerateRows GenericBridge FlagSpec FlagFacts DatasetSpec DatasetFacts DatasetCalls OutSpec OutFacts LrSpec LrFacts PropertiesLr AdamFacts HandSpec.
Opaque api_mapping generators.

Lemma boxes_runs c d i f h : api_known c None f -> edit_text (AfterLast ".") f = h ->
  exists q s, exec c g_BoxesConvertMatcher (st [] d None i false) = Ret (Some (Text q), s) /\ render q = lines [call_of h (texts d)] /\ utils s = true.
Proof.
  intros A H. unfold api_known in A. eexists; eexists; split; [opened g_BoxesConvertMatcher; unfold st; go|]. split; [|reflexivity].
  unfold lit at 1 2. rewrite ?render_one. cbn [content]. rewrite ?H. unfold call_of. txo.
Qed.
Lemma voc_runs c d i : exists q s, exec c g_VOCDetectionMatcher (st [] d None i false) = Ret (Some (Text q), s) /\ render q = lines [call_of "VOCDetection" (texts d)] /\ utils s = true.
Proof. eexists; eexists; split; [opened g_VOCDetectionMatcher; unfold st; go|]. split; [unfold call_of; txo|reflexivity]. Qed.
Lemma module_runs c d i x y : dget String.eqb "obj" d = Some x -> dget String.eqb "mod" d = Some y ->
  exists q s, exec c g_UtilsSetModuleMatcher (st [] d None i false) = Ret (Some (Text q), s) /\ render q = lines ["set_module(" ++ render x ++ "," ++ render y ++ ")"] /\ utils s = true.
Proof. intros X Y. eexists; eexists; split; [opened g_UtilsSetModuleMatcher; unfold st; go|]. split; [txo|reflexivity]. Qed.
Lemma fraction_runs c d i x : dget String.eqb "fraction" d = Some x ->
  exists q s, exec c g_SetPerProcessMemoryFractionMatcher (st [] d None i false) = Ret (Some (Text q), s) /\ render q = lines ["set_per_process_memory_fraction(" ++ render x ++ ")"] /\ utils s = true.
Proof. intros X. eexists; eexists; split; [opened g_SetPerProcessMemoryFractionMatcher; unfold st; go|]. split; [txo|reflexivity]. Qed.

(** The helper gets exactly the given arguments, all of them by name, and the output registers it. *)
Theorem C159_by_name :
  forall n h args kwargs t i,
    In (n, h) helpers_by_name -> reads_as n args kwargs t -> (forall v, ~ In (None, v) t) ->
    exists q l, answer n None args kwargs i = Some (Ret (Converted q true)) /\ render q = lines [call_of h l] /\ made_of l t [] [].
Proof.
  intros n h args kwargs t i I R S. pose proof (keys_once _ args kwargs t R S) as N.
  assert (J : exists s r b, find (fun r => String.eqb (r_name r) n) api_mapping = Some r /\ generator r = Some (s, b) /\
    (forall c d i, (forall x, paddle_api (r_entry r) = Some x -> api_known c None x) -> exists q s, exec c b (st [] d None i false) = Ret (Some (Text q), s) /\ render q = lines [call_of h (texts d)] /\ utils s = true)).
  { unfold helpers_by_name in I. destruct I as [I|[I|[I|[I|[]]]]]; injection I as <- <-.
    1-3: eexists; eexists; exists g_BoxesConvertMatcher; split; [vm_compute; reflexivity|]; split; [vm_compute; reflexivity|]; intros c d j K; eapply boxes_runs; [apply K; vm_compute; reflexivity|vm_compute; reflexivity].
    eexists; eexists; exists g_VOCDetectionMatcher; split; [vm_compute; reflexivity|]; split; [vm_compute; reflexivity|]; intros c d j _; apply voc_runs. }
  destruct J as (s & r & b & Fr & G & X). destruct (answer_line _ r s b args kwargs t i Fr G R) as (c & _ & K & H).
  destruct (X c (start t) i K) as (q & s1 & B & W & U). exists q, (texts (start t)). split; [|split; [exact W|apply made_start; assumption]].
  pose proof (H q s1 _ B (eq_trans W (eq_refl _))) as A. rewrite U in A. exact A.
Qed.
Print Assumptions C159_by_name.
Theorem C159_module :
  forall args kwargs t x y i,
    reads_as "torch.utils.set_module" args kwargs t -> passes t "obj" x -> passes t "mod" y ->
    exists q, answer "torch.utils.set_module" None args kwargs i = Some (Ret (Converted q true)) /\ render q = set_module_code x y.
Proof.
  intros args kwargs t x y i R X Y.
  assert (J : exists s r, find (fun r => String.eqb (r_name r) "torch.utils.set_module") api_mapping = Some r /\ generator r = Some (s, g_UtilsSetModuleMatcher)) by (eexists; eexists; split; vm_compute; reflexivity).
  destruct J as (s & r & Fr & G). destruct (answer_line _ r s _ args kwargs t i Fr G R) as (c & _ & _ & H).
  destruct (module_runs c (start t) i _ _ (got _ args kwargs t R "obj" x ltac:(discriminate) X) (got _ args kwargs t R "mod" y ltac:(discriminate) Y)) as (q & s1 & B & W & U).
  rewrite !render_one in W. cbn [content] in W. exists q. split; [|exact W]. pose proof (H q s1 _ B (eq_trans W (eq_refl _))) as A. rewrite U in A. exact A.
Qed.
Print Assumptions C159_module.
Theorem C159_fraction :
  forall args kwargs t x i,
    reads_as "torch.cuda.set_per_process_memory_fraction" args kwargs t -> passes t "fraction" x ->
    exists q, answer "torch.cuda.set_per_process_memory_fraction" None args kwargs i = Some (Ret (Converted q true)) /\ render q = fraction_code x.
Proof.
  intros args kwargs t x i R X.
  assert (J : exists s r, find (fun r => String.eqb (r_name r) "torch.cuda.set_per_process_memory_fraction") api_mapping = Some r /\ generator r = Some (s, g_SetPerProcessMemoryFractionMatcher)) by (eexists; eexists; split; vm_compute; reflexivity).
  destruct J as (s & r & Fr & G). destruct (answer_line _ r s _ args kwargs t i Fr G R) as (c & _ & _ & H).
  destruct (fraction_runs c (start t) i _ (got _ args kwargs t R "fraction" x ltac:(discriminate) X)) as (q & s1 & B & W & U).
  rewrite !render_one in W. cbn [content] in W. exists q. split; [|exact W]. pose proof (H q s1 _ B (eq_trans W (eq_refl _))) as A. rewrite U in A. exact A.
Qed.
Print Assumptions C159_fraction.
Transparent api_mapping generators.
Example C159_nonvacuous :
  (exists t, reads_as "torchvision.ops.roi_align" [MkExpr false false "a"; MkExpr false false "b"] [MkKw (Some "output_size") (MkExpr false false "7")] t /\ (forall v, ~ In (None, v) t)) /\
  (exists t, reads_as "torchvision.datasets.VOCDetection" [MkExpr false false "r"] [MkKw (Some "download") (MkExpr false false "True")] t /\ (forall v, ~ In (None, v) t)) /\
  (exists t, reads_as "torch.utils.set_module" [MkExpr false false "o"; MkExpr false false "m"] [] t /\ passes t "obj" "o" /\ passes t "mod" "m") /\
  (exists t, reads_as "torch.cuda.set_per_process_memory_fraction" [MkExpr false false "0.5"] [] t /\ passes t "fraction" "0.5").
Proof.
  split; [|split; [|split]]; (eexists; split; [eexists; split; vm_compute; reflexivity|]).
  - nowhere.
  - nowhere.
  - split; there.
  - there.
Qed.
