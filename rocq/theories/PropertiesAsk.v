(** C158: questions about a tensor, and its adjoint. *)
From Coq Require Import PeanoNat Lia.
From Verif Require Import PyStr PyStrFacts PyDict PyDictFacts Ast Args ArgsFacts UtilsFile TablesData Generate GenerateData GenerateRel GenerateRows GenericBridge Grammar FlagSpec FlagFacts DatasetSpec DatasetFacts DatasetCalls OutSpec OutFacts LrSpec LrFacts PropertiesLr AdamFacts HistFacts MethodSpec MethodFacts PropertiesParallel AskSpec.
Opaque api_mapping generators unique_name.

Lemma pinned_runs c d r0 i w : receiver c = Some w -> exists q s, exec c g_Is_PinnedMatcher (st [] d r0 i false) = Ret (Some (Text q), s) /\ render q = "'pinned' in str(" ++ w ++ ".place)".
Proof. intros R. eexists; eexists; split; [opened g_Is_PinnedMatcher; unfold st; with_class R; go|unfold receiver_piece; txo]. Qed.
Lemma signed_runs c d r0 i w : receiver c = Some w -> exists q s, exec c g_TensorIsSignedMatcher (st [] d r0 i false) = Ret (Some (Text q), s) /\ render q = w ++ ".dtype not in [paddle.uint8]".
Proof. intros R. eexists; eexists; split; [opened g_TensorIsSignedMatcher; unfold st; with_class R; go|unfold receiver_piece; txo]. Qed.
Lemma order_runs c d r0 i w : receiver c = Some w -> exists q s, exec c g_DimOrderMatcher (st [] d r0 i false) = Ret (Some (Text q), s) /\ render q = lines ["tuple([i for i in range(len(" ++ w ++ ".shape))])"].
Proof. intros R. eexists; eexists; split; [opened g_DimOrderMatcher; unfold st; eapply r_seq; [go|]; with_class R; go|unfold receiver_piece; txo]. Qed.
Theorem C158_questions :
  forall n f w args kwargs t i,
    In (n, f) questions -> undisturbed w -> reads_as n args kwargs t ->
    exists q u, answer n (Some w) args kwargs i = Some (Ret (Converted q u)) /\ render q = f w.
Proof.
  intros n f w args kwargs t i I U R.
  assert (J : exists s r b, find (fun r => String.eqb (r_name r) n) api_mapping = Some r /\ generator r = Some (s, b) /\
    (forall c d r0 i, receiver c = Some w -> exists q s, exec c b (st [] d r0 i false) = Ret (Some (Text q), s) /\ render q = f w) /\ ~ In (f w) [""; "unchange"; "misidentify"]).
  { unfold questions in I. destruct I as [I|[I|[I|[]]]]; injection I as <- <-.
    - eexists; eexists; exists g_Is_PinnedMatcher. split; [vm_compute; reflexivity|]. split; [vm_compute; reflexivity|]. split; [intros; apply pinned_runs; assumption|]. intros [Q|[Q|[Q|[]]]]; discriminate Q.
    - eexists; eexists; exists g_TensorIsSignedMatcher. split; [vm_compute; reflexivity|]. split; [vm_compute; reflexivity|]. split; [intros; apply signed_runs; assumption|].
      apply (no_word "."); [|right; reflexivity]. rewrite mem_char_app. cbn. apply Bool.orb_true_r.
    - eexists; eexists; exists g_DimOrderMatcher. split; [vm_compute; reflexivity|]. split; [vm_compute; reflexivity|]. split; [intros; apply order_runs; assumption|]. intros [Q|[Q|[Q|[]]]]; discriminate Q. }
  destruct J as (s & r & b & Fr & G & X & Nw). destruct (answer_form n w r s b args kwargs t i Fr G R U) as (c & r0 & E & Rc & _ & _ & H).
  destruct (X c (start t) r0 i Rc) as (q & s1 & B & W). exists q, (utils s1). split; [apply H; [exact B|rewrite W; exact Nw]|exact W].
Qed.
Print Assumptions C158_questions.
(** The new code answers wrongly exactly for tensors of truth values. *)
Theorem C158_bool_refuted : forall d, not_in_list d <> signed d <-> d = AskSpec.Bool.
Proof. intros []; cbn; split; intros H; congruence. Qed.
Print Assumptions C158_bool_refuted.

Lemma size_runs c d i x : dget String.eqb "input" d = Some x -> exists q s, exec c g_NumelMatcher (st [] d None i false) = Ret (Some (Text q), s) /\ render q = render x ++ ".size".
Proof. intros X. eexists; eexists; split; [opened g_NumelMatcher; unfold st; go|txo]. Qed.
Lemma inference_runs c d i x : dget String.eqb "input" d = Some x -> exists q s, exec c g_Is_InferenceMatcher (st [] d None i false) = Ret (Some (Text q), s) /\ render q = render x ++ ".stop_gradient".
Proof. intros X. eexists; eexists; split; [opened g_Is_InferenceMatcher; unfold st; go|txo]. Qed.
Lemma detach_runs c d i x : dget String.eqb "input" d = Some x -> exists q s, exec c g_DetachMatcher (st [] d None i false) = Ret (Some (Text q), s) /\ render q = render x ++ ".detach()".
Proof. intros X. eexists; eexists; split; [opened g_DetachMatcher; unfold st; go|txo]. Qed.
Lemma backend_runs c d i x : dget String.eqb "name" d = Some x -> exists q s, exec c g_DistributedBackendMatcher (st [] d None i false) = Ret (Some (Text q), s) /\ render q = render x ++ ".lower()".
Proof. intros X. eexists; eexists; split; [opened g_DistributedBackendMatcher; unfold st; go|txo]. Qed.
(** As [answer_call], for any text that is no sign to the caller. *)
Lemma answer_any n r strictly b args kwargs t i :
  find (fun r => String.eqb (r_name r) n) api_mapping = Some r -> generator r = Some (strictly, b) -> reads_as n args kwargs t ->
  exists c, forall q s, exec c b (st [] (start t) None i false) = Ret (Some (Text q), s) -> ~ In (render q) [""; "unchange"; "misidentify"] -> answer n None args kwargs i = Some (Ret (Converted q (utils s))).
Proof.
  intros F G R. exists (context_of r strictly None). intros q s E T. destruct R as (r' & F' & R). rewrite F in F'. injection F' as <-. unfold answer. rewrite F, G. unfold paddle_nodes. rewrite R. cbn [fst snd].
  rewrite generate_ends. unfold initial_api. cbn [receiver context_of]. rewrite E. unfold ends, finish. rewrite then_ret.
  destruct (String.eqb_spec (render q) "misidentify") as [X|_]; [exfalso; apply T; rewrite X; cbn; tauto|].
  destruct (String.eqb_spec (render q) "unchange") as [X|_]; [exfalso; apply T; rewrite X; cbn; tauto|].
  destruct (String.eqb_spec (render q) "") as [X|_]; [exfalso; apply T; rewrite X; cbn; tauto|]. reflexivity.
Qed.
Ltac by_dot := intros; apply (no_word "."); [|right; reflexivity]; rewrite mem_char_app; cbn; apply Bool.orb_true_r.
Ltac one_of b lem := eexists; eexists; exists b; split; [vm_compute; reflexivity|]; split; [vm_compute; reflexivity|]; split; [discriminate|]; split; [intros ? ? ? ? HX; apply lem; exact HX|by_dot].
Theorem C158_functions :
  forall n k f args kwargs t x i,
    In (n, (k, f)) functions_of_one -> reads_as n args kwargs t -> passes t k x ->
    exists q u, answer n None args kwargs i = Some (Ret (Converted q u)) /\ render q = f x.
Proof.
  intros n k f args kwargs t x i I R P.
  assert (J : exists s r b, find (fun r => String.eqb (r_name r) n) api_mapping = Some r /\ generator r = Some (s, b) /\ k <> "None" /\
    (forall c d i y, dget String.eqb k d = Some y -> exists q s, exec c b (st [] d None i false) = Ret (Some (Text q), s) /\ render q = f (render y)) /\ forall y, ~ In (f y) [""; "unchange"; "misidentify"]).
  { unfold functions_of_one in I. destruct I as [I|[I|[I|[I|[]]]]]; injection I as <- <- <-.
    - one_of g_NumelMatcher size_runs.
    - one_of g_Is_InferenceMatcher inference_runs.
    - one_of g_DetachMatcher detach_runs.
    - one_of g_DistributedBackendMatcher backend_runs. }
  destruct J as (s & r & b & Fr & G & K & X & Nw). destruct (answer_any n r s b args kwargs t i Fr G R) as (c & H).
  destruct (X c (start t) i _ (got _ args kwargs t R k x K P)) as (q & s1 & B & W). rewrite render_one in W. exists q, (utils s1). split; [apply H; [exact B|rewrite W; apply Nw]|exact W].
Qed.
Print Assumptions C158_functions.

Lemma adjoint_runs c d i x : dget String.eqb "input" d = Some x ->
  exists q s m, exec c g_AdjointMatcher (st [] d None i false) = Ret (Some (Text q), s) /\ render q = adjoint_code ("perm" ++ m) (render x).
Proof.
  intros X. destruct (unique_starts i "perm") as (m & M). eexists; eexists; exists m; split; [opened g_AdjointMatcher; unfold st; eapply r_seq; [go|]; eapply r_seq; [go|]; named; rewrite M; go|unfold adjoint_code; txo].
Qed.
Theorem C158_adjoint :
  forall args kwargs t x i,
    reads_as "torch.adjoint" args kwargs t -> passes t "input" x ->
    exists q u p, answer "torch.adjoint" None args kwargs i = Some (Ret (Converted q u)) /\ render q = adjoint_code ("perm" ++ p) x.
Proof.
  intros args kwargs t x i R X.
  assert (J : exists s r, find (fun r => String.eqb (r_name r) "torch.adjoint") api_mapping = Some r /\ generator r = Some (s, g_AdjointMatcher)) by (eexists; eexists; split; vm_compute; reflexivity).
  destruct J as (s & r & Fr & G). destruct (answer_line _ r s _ args kwargs t i Fr G R) as (c & _ & _ & H).
  destruct (adjoint_runs c (start t) i _ (got _ args kwargs t R "input" x ltac:(discriminate) X)) as (q & s1 & m & B & W).
  rewrite !render_one in W. cbn [content] in W. exists q, (utils s1), m. split; [eapply H; [exact B|rewrite W; reflexivity]|exact W].
Qed.
Print Assumptions C158_adjoint.
(** The permutation exchanges the last two axes and keeps the others. *)
Theorem C158_axes :
  forall n i, (2 <= n -> i < n -> nth i (swap_last (seq 0 n)) 0 = if i =? n - 1 then n - 2 else if i =? n - 2 then n - 1 else i)%nat.
Proof.
  intros n i N I. destruct n as [|[|m]]; [lia|lia|]. replace (S (S m)) with (m + 2)%nat in * by lia. replace (m + 2 - 1)%nat with (m + 1)%nat by lia. replace (m + 2 - 2)%nat with m by lia.
  unfold swap_last. rewrite seq_app, rev_app_distr. cbn [plus seq rev List.app]. rewrite rev_involutive, <- List.app_assoc. cbn [List.app].
  destruct (Nat.eqb_spec i (m + 1)%nat) as [->|A].
  - rewrite app_nth2 by (rewrite seq_length; lia). rewrite seq_length. replace (m + 1 - m)%nat with 1%nat by lia. reflexivity.
  - destruct (Nat.eqb_spec i m) as [->|B].
    + rewrite app_nth2 by (rewrite seq_length; lia). rewrite seq_length, Nat.sub_diag. cbn. lia.
    + rewrite app_nth1 by (rewrite seq_length; lia). rewrite seq_nth by lia. reflexivity.
Qed.
Print Assumptions C158_axes.
Transparent api_mapping generators unique_name.
Example C158_nonvacuous :
  undisturbed "a.b[0]" /\
  (exists t, reads_as "torch.Tensor.is_signed" [] [] t) /\
  (exists t, reads_as "torch.detach" [MkExpr false false "a"] [] t /\ passes t "input" "a") /\
  (exists t, reads_as "torch.distributed.Backend" [MkExpr false false "a"] [] t /\ passes t "name" "a") /\
  (exists t, reads_as "torch.adjoint" [] [MkKw (Some "input") (MkExpr false false "a")] t /\ passes t "input" "a") /\
  swap_last (seq 0 4) = [0; 1; 3; 2]%nat.
Proof.
  split; [reflexivity|]. split; [eexists; eexists; split; vm_compute; reflexivity|]. split; [|split; [|split; [|reflexivity]]]; (eexists; split; [eexists; split; vm_compute; reflexivity|there]).
Qed.
