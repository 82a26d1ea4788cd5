(** C152: parallel models of fairscale, and the norm of flash_attn. *)
From Coq Require Import ZArith Lia.
From Verif Require Import PyStr PyStrFacts PyDict PyDictFacts Ast Args ArgsFacts UtilsFile TablesData Generate GenerateData GenerateRel GenerateRows GenericBridge FlagSpec FlagFacts DatasetSpec DatasetFacts DatasetCalls OutSpec OutFacts LrSpec LrFacts PropertiesLr AdamFacts ParallelSpec.
Opaque api_mapping generators.

Lemma r_unique c k vs ds r i u : eval c (EUnique k) (MkState vs ds r i u) = Ret (Text (lit (snd (unique_name i k))), MkState vs ds r (fst (unique_name i k)) u).
Proof. change (eval c (EUnique k) (MkState vs ds r i u)) with (let (i', n) := unique_name i k in Ret (Text (lit n), MkState vs ds r i' u)). destruct (unique_name i k); reflexivity. Qed.
Lemma unique_starts i k : exists y, snd (unique_name i k) = k ++ y.
Proof. unfold unique_name. cbn [snd]. unfold join. cbn [String.concat]. eexists. reflexivity. Qed.
Opaque unique_name.
Ltac named := eapply r_seq; [eapply r_let; [apply r_unique|puts]|].
Lemma fleet_runs c d i x y : dget String.eqb "model_parallel_size_" d = Some x ->
  match dget String.eqb "pipeline_length" d with Some p => y = render p | None => y = "1" end ->
  exists q s m e f, exec c g_FSInitializeModelParallelMatcher (st [] d None i false) = Ret (Some (Text q), s) /\
    render q = fleet_code ("model_parallel_size" ++ m) ("data_parallel_size" ++ e) ("strategy" ++ f) (render x) y.
Proof.
  intros X Y. set (j := fst (unique_name i "model_parallel_size")). set (k := fst (unique_name j "data_parallel_size")).
  destruct (unique_starts i "model_parallel_size") as (m & M). destruct (unique_starts j "data_parallel_size") as (e & E). destruct (unique_starts k "strategy") as (f & F).
  destruct (dget String.eqb "pipeline_length" d) as [p|] eqn:P; subst y; (eexists; eexists; exists m, e, f; split;
    [opened g_FSInitializeModelParallelMatcher; unfold st; eapply r_seq; [go|]; do 3 named; fold j k; rewrite M, E, F; go|unfold fleet_code; txo]).
Qed.
Lemma embedding_runs c d i x y : dget String.eqb "num_embeddings" d = Some x -> dget String.eqb "embedding_dim" d = Some y ->
  exists q s, exec c g_FSParallelEmbeddingMatcher (st [] d None i false) = Ret (Some (Text q), s) /\ render q = embedding_code (render x) (render y).
Proof. intros X Y. eexists; eexists; split; [opened g_FSParallelEmbeddingMatcher; unfold st; go|unfold embedding_code; txo]. Qed.
Lemma norm_runs c d i x y z : dget String.eqb "x" d = Some x -> dget String.eqb "weight" d = Some y -> dget String.eqb "epsilon" d = Some z ->
  exists q s, exec c g_FARmsNorm (st [] d None i false) = Ret (Some (Text q), s) /\ render q = norm_code (render x) (render y) (render z).
Proof. intros X Y Z. eexists; eexists; split; [opened g_FARmsNorm; unfold st; go|unfold norm_code; txo]. Qed.

Notation initialize := "fairscale.nn.model_parallel.initialize.initialize_model_parallel".
Notation embedding := "fairscale.nn.model_parallel.layers.ParallelEmbedding".
Notation rms_norm := "flash_attn.ops.rms_norm.rms_norm".
Theorem C152_initialize :
  forall args kwargs t x y i,
    reads_as initialize args kwargs t -> passes t "model_parallel_size_" x ->
    (passes t "pipeline_length" y \/ (forall p, ~ passes t "pipeline_length" p) /\ y = "1") ->
    exists q u m d s, answer initialize None args kwargs i = Some (Ret (Converted q u)) /\ render q = fleet_code m d s x y /\ NoDup [m; d; s].
Proof.
  intros args kwargs t x y i R X Y.
  assert (J : exists s r, find (fun r => String.eqb (r_name r) initialize) api_mapping = Some r /\ generator r = Some (s, g_FSInitializeModelParallelMatcher) /\ unsupport_args (r_entry r) = []) by (row_found; reflexivity).
  destruct J as (s & r & Fr & G & Us). pose proof (known_star _ r args kwargs t Fr Us R) as S. destruct (answer_line _ r s _ args kwargs t i Fr G R) as (c & _ & _ & H).
  destruct (fleet_runs c (start t) i _ y (got _ args kwargs t R "model_parallel_size_" x ltac:(discriminate) X)) as (q & s1 & m & e & f & B & W).
  { destruct Y as [P|[P ->]].
    - rewrite (got _ args kwargs t R "pipeline_length" y ltac:(discriminate) P). symmetry. apply render_one.
    - rewrite (not_got _ args kwargs t R S "pipeline_length" P). reflexivity. }
  rewrite render_one in W. cbn [content] in W. exists q, (utils s1). do 3 eexists. split; [eapply H; [exact B|rewrite W; reflexivity]|]. split; [exact W|].
  repeat constructor; cbn [In]; intros Q; decompose [or] Q; try contradiction; discriminate.
Qed.
Print Assumptions C152_initialize.
(** The parts, the replicas and the pipelines take all processes exactly if they can. *)
Theorem C152_degrees :
  forall world size length, (0 < world -> 0 < size -> 0 < length ->
    (replicas world size length * parts world size * length = world <-> (parts world size * length | world)) /\
    replicas world size length * parts world size * length <= world /\ 0 < parts world size <= world)%Z.
Proof.
  intros w z l W Z L. unfold replicas. assert (P : (0 < parts w z <= w)%Z) by (unfold parts; lia). set (p := parts w z) in *. assert (Q : (0 < p * l)%Z) by nia.
  pose proof (Z.div_mod w (p * l) ltac:(lia)) as D. pose proof (Z.mod_pos_bound w (p * l) Q) as M. split; [|split; [nia|exact P]]. split.
  - intros E. exists (w / (p * l))%Z. nia.
  - intros (k & E). rewrite E, Z.div_mul by lia. nia.
Qed.
Print Assumptions C152_degrees.
Theorem C152_embedding :
  forall args kwargs t x y i,
    reads_as embedding args kwargs t -> passes t "num_embeddings" x -> passes t "embedding_dim" y ->
    exists q u, answer embedding None args kwargs i = Some (Ret (Converted q u)) /\ render q = embedding_code x y.
Proof.
  intros args kwargs t x y i R X Y.
  assert (J : exists s r, find (fun r => String.eqb (r_name r) embedding) api_mapping = Some r /\ generator r = Some (s, g_FSParallelEmbeddingMatcher)) by (eexists; eexists; split; vm_compute; reflexivity).
  destruct J as (s & r & Fr & G). destruct (answer_call _ r s _ args kwargs t i Fr G R) as (c & _ & _ & H).
  destruct (embedding_runs c (start t) i _ _ (got _ args kwargs t R "num_embeddings" x ltac:(discriminate) X) (got _ args kwargs t R "embedding_dim" y ltac:(discriminate) Y)) as (q & s1 & B & W).
  rewrite !render_one in W. cbn [content] in W. exists q, (utils s1). split; [apply H; [exact B|rewrite W; reflexivity]|exact W].
Qed.
Print Assumptions C152_embedding.
(** So the way the weights are to be initialized has no effect on the new code. *)
Theorem C152_init_refuted :
  forall args kwargs t args' kwargs' t' x y a b i,
    reads_as embedding args kwargs t -> passes t "num_embeddings" x -> passes t "embedding_dim" y -> passes t "init_method" a ->
    reads_as embedding args' kwargs' t' -> passes t' "num_embeddings" x -> passes t' "embedding_dim" y -> passes t' "init_method" b ->
    exists q u q' u', answer embedding None args kwargs i = Some (Ret (Converted q u)) /\ answer embedding None args' kwargs' i = Some (Ret (Converted q' u')) /\ render q = render q'.
Proof.
  intros args kwargs t args' kwargs' t' x y a b i R X Y _ R' X' Y' _. destruct (C152_embedding _ _ t x y i R X Y) as (q & u & A & B). destruct (C152_embedding _ _ t' x y i R' X' Y') as (q' & u' & A' & B').
  exists q, u, q', u'. split; [exact A|]. split; [exact A'|]. rewrite B, B'. reflexivity.
Qed.
Print Assumptions C152_init_refuted.
Theorem C152_norm :
  forall args kwargs t x y z i,
    reads_as rms_norm args kwargs t -> passes t "x" x -> passes t "weight" y -> passes t "epsilon" z ->
    exists q u, answer rms_norm None args kwargs i = Some (Ret (Converted q u)) /\ render q = norm_code x y z.
Proof.
  intros args kwargs t x y z i R X Y Z.
  assert (J : exists s r, find (fun r => String.eqb (r_name r) rms_norm) api_mapping = Some r /\ generator r = Some (s, g_FARmsNorm)) by (eexists; eexists; split; vm_compute; reflexivity).
  destruct J as (s & r & Fr & G). destruct (answer_line _ r s _ args kwargs t i Fr G R) as (c & _ & _ & H).
  destruct (norm_runs c (start t) i _ _ _ (got _ args kwargs t R "x" x ltac:(discriminate) X) (got _ args kwargs t R "weight" y ltac:(discriminate) Y) (got _ args kwargs t R "epsilon" z ltac:(discriminate) Z)) as (q & s1 & B & W).
  rewrite !render_one in W. cbn [content] in W. exists q, (utils s1). split; [eapply H; [exact B|rewrite W; reflexivity]|exact W].
Qed.
Print Assumptions C152_norm.
Transparent api_mapping generators.
Example C152_nonvacuous :
  (exists t, reads_as initialize [MkExpr false false "4"] [MkKw (Some "pipeline_length") (MkExpr false false "n")] t /\ passes t "model_parallel_size_" "4" /\ passes t "pipeline_length" "n") /\
  (exists t, reads_as initialize [MkExpr false false "4"] [] t /\ passes t "model_parallel_size_" "4" /\ (forall p, ~ passes t "pipeline_length" p)) /\
  (exists t, reads_as embedding [MkExpr false false "v"; MkExpr false false "w"] [MkKw (Some "init_method") (MkExpr false false "f")] t /\ passes t "num_embeddings" "v" /\ passes t "embedding_dim" "w" /\ passes t "init_method" "f") /\
  (exists t, reads_as rms_norm [MkExpr false false "a"; MkExpr false false "w"; MkExpr false false "e"] [] t /\ passes t "x" "a" /\ passes t "weight" "w" /\ passes t "epsilon" "e") /\
  (replicas 8 2 2 * parts 8 2 * 2 = 8)%Z /\ (replicas 8 3 2 * parts 8 3 * 2 = 6)%Z.
Proof.
  split; [|split; [|split; [|split; [|split; reflexivity]]]]; (eexists; split; [eexists; split; vm_compute; reflexivity|]).
  - split; there.
  - split; [there|nowhere].
  - split; [there|]. split; there.
  - split; [there|]. split; there.
Qed.
