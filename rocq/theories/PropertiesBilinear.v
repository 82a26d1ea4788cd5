(** C156: bilinear forms, remote calls and decoded images. *)
From Verif Require Import PyStr PyStrFacts PyDict PyDictFacts Ast Args ArgsFacts UtilsFile TablesData Generate GenerateData GenerateRel GenerateRows GenericBridge FlagSpec FlagFacts DatasetSpec DatasetFacts DatasetCalls OutSpec OutFacts LrSpec LrFacts PropertiesLr AdamFacts BilinearSpec.
Opaque api_mapping generators.

Definition lifted (b : rope) : rope := (MkPiece [] "" :: b ++ [MkPiece [] ".unsqueeze(0)"])%list.
Definition two (x y : rope) (d : kwdict) : kwdict := dset String.eqb "x2" y (ddel String.eqb "input2" (dset String.eqb "x1" x (ddel String.eqb "input1" d))).
Lemma bilinear_plain c d i f x y : api_known c None f -> dget String.eqb "input1" d = Some x -> dget String.eqb "input2" d = Some y -> dget String.eqb "bias" d = None ->
  exists q s, exec c g_FunctionalBilinearMatcher (st [] d None i false) = Ret (Some (Text q), s) /\ render q = call_of f (texts (two x y d)).
Proof. intros A X Y B. unfold api_known in A. unfold two. eexists; eexists; split; [opened g_FunctionalBilinearMatcher; unfold st; go|txo]. Qed.
Lemma bilinear_bias c d i f x y b : api_known c None f -> dget String.eqb "input1" d = Some x -> dget String.eqb "input2" d = Some y -> dget String.eqb "bias" d = Some b ->
  exists q s, exec c g_FunctionalBilinearMatcher (st [] d None i false) = Ret (Some (Text q), s) /\ render q = call_of f (texts (two x y (dset String.eqb "bias" (lifted b) d))).
Proof. intros A X Y B. unfold api_known in A. unfold two, lifted. eexists; eexists; split; [opened g_FunctionalBilinearMatcher; unfold st; go|txo]. Qed.
Lemma remote_runs c d i x : dget String.eqb "func" d = Some x ->
  exists q s, exec c g_RpcRemoteMatcher (st [] d None i false) = Ret (Some (Text q), s) /\ render q = remote_code (texts (dset String.eqb "fn" x (ddel String.eqb "func" d))) /\ utils s = true.
Proof. intros X. eexists; eexists; split; [opened g_RpcRemoteMatcher; unfold st; go|split; [unfold remote_code, call_of; txo|reflexivity]]. Qed.
Lemma decode_runs c d i f x y : api_known c None f -> dget String.eqb "input" d = Some x -> dget String.eqb "device" d = Some y ->
  exists q s, exec c g_DecodeJpegMatcher (st [] d None i false) = Ret (Some (Text q), s) /\ render q = lines [call_of f (texts (ddel String.eqb "device" (dset String.eqb "x" x (ddel String.eqb "input" d)))) ++ ".to(" ++ render y ++ ")"].
Proof. intros A X Y. unfold api_known in A. eexists; eexists; split; [opened g_DecodeJpegMatcher; unfold st; go|txo]. Qed.

Notation bilinear := "torch.nn.functional.bilinear".
Lemma bilinear_row : exists s r, find (fun r => String.eqb (r_name r) bilinear) api_mapping = Some r /\ generator r = Some (s, g_FunctionalBilinearMatcher) /\ unsupport_args (r_entry r) = [] /\ paddle_api (r_entry r) = Some bilinear_paddle.
Proof. row_found. split; reflexivity. Qed.
Theorem C156_bilinear :
  forall args kwargs t x y i,
    reads_as bilinear args kwargs t -> passes t "input1" x -> passes t "input2" y -> (forall b, ~ passes t "bias" b) ->
    exists q u l, answer bilinear None args kwargs i = Some (Ret (Converted q u)) /\ render q = call_of bilinear_paddle l /\ made_of l t ["input2"; "input1"] [("x1", x); ("x2", y)].
Proof.
  intros args kwargs t x y i R X Y Z. destruct bilinear_row as (s & r & Fr & G & Us & A). pose proof (known_star _ r args kwargs t Fr Us R) as S. pose proof (keys_once _ args kwargs t R S) as N.
  destruct (answer_call _ r s _ args kwargs t i Fr G R) as (c & _ & Q & H).
  destruct (bilinear_plain c (start t) i _ _ _ (Q _ A) (got _ args kwargs t R "input1" x ltac:(discriminate) X) (got _ args kwargs t R "input2" y ltac:(discriminate) Y) (not_got _ args kwargs t R S "bias" Z)) as (q & s1 & B & W).
  exists q, (utils s1). eexists. split; [apply H; [exact B|rewrite W; apply call_bracket]|]. split; [exact W|].
  unfold two. match goal with |- made_of ?l ?t _ _ => eassert (M : made_of l t _ _) by made end. rewrite !render_one in M. exact M.
Qed.
Print Assumptions C156_bilinear.
Theorem C156_bias :
  forall args kwargs t x y b i,
    reads_as bilinear args kwargs t -> passes t "input1" x -> passes t "input2" y -> passes t "bias" b ->
    exists q u l, answer bilinear None args kwargs i = Some (Ret (Converted q u)) /\ render q = call_of bilinear_paddle l /\ made_of l t ["input2"; "input1"] [("bias", raised b); ("x1", x); ("x2", y)].
Proof.
  intros args kwargs t x y b i R X Y Z. destruct bilinear_row as (s & r & Fr & G & Us & A). pose proof (known_star _ r args kwargs t Fr Us R) as S. pose proof (keys_once _ args kwargs t R S) as N.
  destruct (answer_call _ r s _ args kwargs t i Fr G R) as (c & _ & Q & H).
  destruct (bilinear_bias c (start t) i _ _ _ _ (Q _ A) (got _ args kwargs t R "input1" x ltac:(discriminate) X) (got _ args kwargs t R "input2" y ltac:(discriminate) Y) (got _ args kwargs t R "bias" b ltac:(discriminate) Z)) as (q & s1 & B & W).
  exists q, (utils s1). eexists. split; [apply H; [exact B|rewrite W; apply call_bracket]|]. split; [exact W|].
  assert (L : render (lifted [MkPiece [Argument "bias"] b]) = raised b) by (unfold lifted, raised; txo). rewrite <- L.
  unfold two. match goal with |- made_of ?l ?t _ _ => eassert (M : made_of l t _ _) by made end. rewrite !(render_one [Argument "input1"]), !(render_one [Argument "input2"]) in M. exact M.
Qed.
Print Assumptions C156_bias.
(** The default None, given explicitly, is treated as a tensor: the new code asks None for a method. *)
Theorem C156_none_refuted :
  forall args kwargs t x y i,
    reads_as bilinear args kwargs t -> passes t "input1" x -> passes t "input2" y -> passes t "bias" "None" ->
    exists q u l, answer bilinear None args kwargs i = Some (Ret (Converted q u)) /\ render q = call_of bilinear_paddle l /\ In ("bias", "None.unsqueeze(0)") l.
Proof.
  intros args kwargs t x y i R X Y Z. destruct (C156_bias args kwargs t x y _ i R X Y Z) as (q & u & l & A & B & [_ M]). exists q, u, l. split; [exact A|]. split; [exact B|]. apply M. left. left. reflexivity.
Qed.
Print Assumptions C156_none_refuted.
Notation remote := "torch.distributed.rpc.remote".
Theorem C156_remote :
  forall args kwargs t x i,
    reads_as remote args kwargs t -> passes t "func" x ->
    exists q l, answer remote None args kwargs i = Some (Ret (Converted q true)) /\ render q = remote_code l /\ made_of l t ["func"] [("fn", x)].
Proof.
  intros args kwargs t x i R X.
  assert (J : exists s r, find (fun r => String.eqb (r_name r) remote) api_mapping = Some r /\ generator r = Some (s, g_RpcRemoteMatcher) /\ unsupport_args (r_entry r) = []) by (row_found; reflexivity).
  destruct J as (s & r & Fr & G & Us). pose proof (known_star _ r args kwargs t Fr Us R) as S. pose proof (keys_once _ args kwargs t R S) as N.
  destruct (answer_line _ r s _ args kwargs t i Fr G R) as (c & _ & _ & H).
  destruct (remote_runs c (start t) i _ (got _ args kwargs t R "func" x ltac:(discriminate) X)) as (q & s1 & B & W & U).
  exists q. eexists. split; [pose proof (H q s1 _ B (eq_trans W (eq_refl _))) as A; rewrite U in A; exact A|]. split; [exact W|].
  match goal with |- made_of ?l ?t _ _ => eassert (M : made_of l t _ _) by made end. rewrite !render_one in M. exact M.
Qed.
Print Assumptions C156_remote.
Notation decode := "torchvision.io.decode_jpeg".
Theorem C156_decode :
  forall args kwargs t x y i,
    reads_as decode args kwargs t -> (forall v, ~ In (None, v) t) -> passes t "input" x -> passes t "device" y ->
    exists q u l, answer decode None args kwargs i = Some (Ret (Converted q u)) /\ render q = decode_code l y /\ made_of l t ["device"; "input"] [("x", x)].
Proof.
  intros args kwargs t x y i R S X Y.
  assert (J : exists s r, find (fun r => String.eqb (r_name r) decode) api_mapping = Some r /\ generator r = Some (s, g_DecodeJpegMatcher) /\ paddle_api (r_entry r) = Some "paddle.vision.ops.decode_jpeg") by (row_found; reflexivity).
  destruct J as (s & r & Fr & G & A). pose proof (keys_once _ args kwargs t R S) as N.
  destruct (answer_line _ r s _ args kwargs t i Fr G R) as (c & _ & Q & H).
  destruct (decode_runs c (start t) i _ _ _ (Q _ A) (got _ args kwargs t R "input" x ltac:(discriminate) X) (got _ args kwargs t R "device" y ltac:(discriminate) Y)) as (q & s1 & B & W).
  rewrite (render_one [Argument "device"]) in W. exists q, (utils s1). eexists. split; [exact (H q s1 _ B (eq_trans W (eq_refl _)))|]. split; [exact W|].
  match goal with |- made_of ?l ?t _ _ => eassert (M : made_of l t _ _) by made end. rewrite !render_one in M. exact M.
Qed.
Print Assumptions C156_decode.
Transparent api_mapping generators.
Example C156_nonvacuous :
  (exists t, reads_as bilinear [MkExpr false false "a"; MkExpr false false "b"; MkExpr false false "w"] [] t /\ passes t "input1" "a" /\ passes t "input2" "b" /\ (forall v, ~ passes t "bias" v)) /\
  (exists t, reads_as bilinear [MkExpr false false "a"; MkExpr false false "b"; MkExpr false false "w"] [MkKw (Some "bias") (MkExpr false false "None")] t /\ passes t "input1" "a" /\ passes t "input2" "b" /\ passes t "bias" "None") /\
  (exists t, reads_as remote [MkExpr false false "'w'"; MkExpr false false "f"] [MkKw (Some "args") (MkExpr false false "x")] t /\ passes t "func" "f") /\
  (exists t, reads_as decode [MkExpr false false "a"] [MkKw (Some "device") (MkExpr false false "d")] t /\ (forall v, ~ In (None, v) t) /\ passes t "input" "a" /\ passes t "device" "d").
Proof.
  split; [|split; [|split]]; (eexists; split; [eexists; split; vm_compute; reflexivity|]).
  - do 2 (split; [there|]). nowhere.
  - do 2 (split; [there|]). there.
  - there.
  - split; [nowhere|]. split; there.
Qed.
