(** C147: attention. *)
From Coq Require Import QArith Lia.
From Verif Require Import PyStr PyStrFacts PyDict PyDictFacts Ast Args ArgsFacts UtilsFile TablesData Generate GenerateData GenerateRel GenerateRows GenericBridge FlagSpec FlagFacts DatasetSpec DatasetFacts DatasetCalls OutSpec OutFacts LrSpec LrFacts PropertiesLr AdamFacts FlashSpec FlashFacts.
Open Scope string_scope.
Open Scope list_scope.
Open Scope string_scope.
Opaque api_mapping generators.

Notation flash := "flash_attn.flash_attn_interface.flash_attn_func".
Notation unpadded := "flash_attn.flash_attn_interface.flash_attn_unpadded_func".
Notation flash_paddle := "paddle.nn.functional.flash_attention.flash_attention".
Notation unpadded_paddle := "paddle.nn.functional.flash_attention.flash_attn_unpadded".
(** Only the first result is kept, whatever is asked for. *)
Theorem C147_attention :
  forall args kwargs t i,
    reads_as flash args kwargs t -> (forall v, ~ In (None, v) t) -> free_of t attention_foreign ->
    exists q u m l, answer flash None args kwargs i = Some (Ret (Converted q u)) /\ render q = call_of flash_paddle l ++ "[0]" /\
      made_of m t [] [] /\ renamed_as attention_names m l.
Proof.
  intros args kwargs t i R S F.
  assert (J : exists s r, find (fun r => String.eqb (r_name r) flash) api_mapping = Some r /\ generator r = Some (s, g_FAFlashAttnFuncMatcher) /\
    paddle_api (r_entry r) = Some flash_paddle /\ kwargs_change (r_entry r) = renaming_of attention_names /\ paddle_default_kwargs (r_entry r) = []) by (row_found; repeat split; reflexivity).
  destruct J as (s & r & Fr & G & A & C & D). pose proof (keys_once _ args kwargs t R S) as N. destruct (answer_call _ r s _ args kwargs t i Fr G R) as (c & E & Q & H).
  pose proof (made_start t N S) as M.
  assert (K : forall k, In k attention_foreign -> ~ In k (dkeys (start t))) by (apply (made_fresh (start t) t [] [] attention_foreign M F); intros k _ []).
  assert (U : forall k, In k generic_unused -> ~ In k (dkeys (start t))) by (intros k J; apply K; unfold generic_unused in J; unfold attention_foreign; cbn [In] in *; tauto).
  assert (Z : renamed_as attention_names (texts (start t)) (texts (change_rope (row_of c) [] (start t)))).
  { apply renamed_texts; [rewrite E; exact C|intros ? J; unfold attention_names in J; cbn [In] in J; decompose [or] J; subst; try discriminate; contradiction|unfold attention_names; distinct|exact N|].
    intros x J. apply K. unfold attention_names in J. unfold attention_foreign. destruct J as [<-|[<-|[<-|[<-|[<-|[]]]]]]; cbn [In snd]; tauto. }
  assert (X : forall k, In k ["dtype"; "pin_memory"; "requires_grad"; "out"] -> dget String.eqb k (settled c (start t)) = None).
  { intros k J. assert (L : In k attention_foreign) by (unfold attention_foreign; cbn [In] in *; tauto). apply (settled_absent c attention_names (start t) t [] []).
    - exact Z.
    - exact M.
    - exact U.
    - unfold attention_names. destruct J as [<-|[<-|[<-|[<-|[]]]]]; notin.
    - intros [].
    - intros v. exact (F k v L).
    - unfold default_ropes. rewrite E, D. constructor.
    - unfold default_ropes. rewrite E, D. intros []. }
  destruct (generic_call c (start t) i false _ (Q _ A)) as (q & s1 & V & T); [apply X; cbn; tauto|apply X; cbn; tauto|apply X; cbn; tauto|apply X; cbn; tauto|].
  destruct (flash_runs c (start t) i q s1 V) as (s2 & W).
  assert (T2 : render (q ++ lit "[0]")%list = call_of flash_paddle (texts (settled c (start t))) ++ "[0]") by (rewrite render_app, T; unfold lit; rewrite render_one; reflexivity).
  exists (q ++ lit "[0]")%list, (utils s2), (texts (start t)), (texts (settled c (start t))).
  split; [apply H; [exact W|rewrite T2; rewrite mem_char_app, call_bracket; reflexivity]|]. split; [exact T2|]. split; [exact M|].
  unfold settled, default_ropes. rewrite (unused_free (row_of c) generic_unused (start t) U). rewrite E, D in *. exact Z.
Qed.
Print Assumptions C147_attention.
(** So a call that asks for the probabilities gets the output alone. *)
Theorem C147_probs_refuted :
  forall args kwargs t v i,
    reads_as flash args kwargs t -> (forall v, ~ In (None, v) t) -> free_of t attention_foreign -> passes t "return_attn_probs" v ->
    exists q u l, answer flash None args kwargs i = Some (Ret (Converted q u)) /\ render q = call_of flash_paddle l ++ "[0]" /\ In ("return_softmax", v) l.
Proof.
  intros args kwargs t v i R S F P. destruct (C147_attention args kwargs t i R S F) as (q & u & m & l & A & B & [_ M] & [_ Z]).
  exists q, u, l. split; [exact A|]. split; [exact B|]. apply Z. exists "return_attn_probs". split; [|reflexivity]. apply M. right. split; [intros []|]. split; [intros []|exact P].
Qed.
Print Assumptions C147_probs_refuted.

Lemma unpadded_parts args kwargs t : reads_as unpadded args kwargs t -> (forall v, ~ In (None, v) t) -> free_of t attention_foreign ->
  exists s r, find (fun r => String.eqb (r_name r) unpadded) api_mapping = Some r /\ generator r = Some (s, g_FAFlashAttnUnpaddedFuncMatcher) /\ paddle_api (r_entry r) = Some unpadded_paddle /\
  forall c, row_of c = r_entry r -> made_of (texts (start t)) t [] [] /\ renamed_as unpadded_names (texts (start t)) (texts (renamed c (start t))).
Proof.
  intros R S F.
  assert (J : exists s r, find (fun r => String.eqb (r_name r) unpadded) api_mapping = Some r /\ generator r = Some (s, g_FAFlashAttnUnpaddedFuncMatcher) /\
    paddle_api (r_entry r) = Some unpadded_paddle /\ kwargs_change (r_entry r) = renaming_of unpadded_names) by (row_found; repeat split; reflexivity).
  destruct J as (s & r & Fr & G & A & C). exists s, r. split; [exact Fr|]. split; [exact G|]. split; [exact A|]. intros c E. pose proof (keys_once _ args kwargs t R S) as N.
  pose proof (made_start t N S) as M. split; [exact M|]. unfold renamed.
  assert (K : forall k, In k attention_foreign -> ~ In k (dkeys (start t))) by (apply (made_fresh (start t) t [] [] attention_foreign M F); intros k _ []).
  apply renamed_texts; [rewrite E; exact C|intros ? J; unfold unpadded_names in J; cbn [In] in J; decompose [or] J; subst; try discriminate; contradiction|unfold unpadded_names; distinct|exact N|].
  intros x J. apply K. unfold unpadded_names in J. unfold attention_foreign. destruct J as [<-|[<-|[<-|[<-|[<-|[<-|[]]]]]]]; cbn [In snd]; tauto.
Qed.
(** What the renamed dictionary has. *)
Lemma renamed_got m t c ren k n v : made_of m t [] [] -> renamed_as ren m (texts (renamed c (start t))) -> passes t k v -> called ren k = n ->
  exists y, dget String.eqb n (renamed c (start t)) = Some y /\ render y = v.
Proof.
  intros [_ M] [N Z] P <-. rewrite texts_keys in N. apply in_texts; [exact N|]. apply Z. exists k. split; [|reflexivity]. apply M. right. split; [intros []|]. split; [intros []|exact P].
Qed.
Theorem C147_unpadded :
  forall args kwargs t v i,
    reads_as unpadded args kwargs t -> (forall v, ~ In (None, v) t) -> free_of t attention_foreign -> passes t "softmax_scale" v ->
    exists q u m l, answer unpadded None args kwargs i = Some (Ret (Converted q u)) /\ render q = lines [capable; call_of unpadded_paddle l ++ "[0]"] /\
      made_of m t [] [] /\ renamed_as unpadded_names m l.
Proof.
  intros args kwargs t v i R S F P. destruct (unpadded_parts args kwargs t R S F) as (s & r & Fr & G & A & X).
  destruct (answer_line _ r s _ args kwargs t i Fr G R) as (c & E & Q & H). destruct (X c E) as [M Z].
  destruct (renamed_got _ _ _ _ "softmax_scale" "scale" v M Z P eq_refl) as (y & Y & _).
  destruct (unpadded_given c (start t) i _ y (Q _ A) Y) as (q & s1 & B & W).
  eexists; eexists; eexists; eexists. split; [eapply H; [exact B|rewrite W; reflexivity]|]. split; [exact W|]. split; [exact M|exact Z].
Qed.
Print Assumptions C147_unpadded.
(** Without a scale, the square root of the size of the heads is passed as one. *)
Theorem C147_default_scale :
  forall args kwargs t x i,
    reads_as unpadded args kwargs t -> (forall v, ~ In (None, v) t) -> free_of t attention_foreign -> (forall v, ~ passes t "softmax_scale" v) -> passes t "q" x ->
    exists q u m l, answer unpadded None args kwargs i = Some (Ret (Converted q u)) /\
      render q = lines ["import math"; capable; call_of unpadded_paddle (l ++ [("scale", ("math.sqrt(" ++ x ++ ".shape[-1])")%string)])%list ++ "[0]"] /\
      made_of m t [] [] /\ renamed_as unpadded_names m l.
Proof.
  intros args kwargs t x i R S F O P. destruct (unpadded_parts args kwargs t R S F) as (s & r & Fr & G & A & X).
  destruct (answer_line _ r s _ args kwargs t i Fr G R) as (c & E & Q & H). destruct (X c E) as [M Z].
  destruct (renamed_got _ _ _ _ "q" "query" x M Z P eq_refl) as (y & Y & <-).
  assert (V : dget String.eqb "scale" (renamed c (start t)) = None).
  { apply (dget_none_iff _ String.eqb_spec). rewrite <- texts_keys. intros I. apply in_map_iff in I as ([a v] & J & I). cbn [fst] in J. subst a. apply Z in I as (j & I & J).
    apply M in I as [[]|(_ & _ & I)]. unfold called, unpadded_names in J. cbn [dget] in J.
    do 4 (destruct (String.eqb j _); [discriminate J|]). destruct (String.eqb_spec j "softmax_scale") as [->|_]; [exact (O v I)|]. destruct (String.eqb j _); [discriminate J|].
    subst j. exact (F "scale" v ltac:(unfold attention_foreign; cbn; tauto) I). }
  destruct (unpadded_default c (start t) i _ y (Q _ A) V Y) as (q & s1 & B & W).
  eexists; eexists; eexists; eexists. split; [eapply H; [exact B|rewrite W; reflexivity]|]. split; [exact W|]. split; [exact M|exact Z].
Qed.
Print Assumptions C147_default_scale.
(** That is never the scale of flash_attn, its reciprocal, except for heads of size 1. *)
Theorem C147_scale_refuted : forall h s, square_root h s -> (flash_scale h s <-> h = 1%Z).
Proof.
  intros h s [P S]. unfold flash_scale. rewrite S. split.
  - intros [_ H]. rewrite <- inject_Z_mult in H. unfold inject_Z, Qeq in H. cbn [Qnum Qden] in H.
    assert (Hp : (0 < inject_Z h)%Q) by (rewrite <- S; rewrite <- (Qmult_0_l 0); apply Qmult_lt_compat_nonneg; split; try exact P; apply Qle_refl).
    unfold inject_Z, Qlt in Hp. cbn [Qnum Qden] in Hp. nia.
  - intros ->. split; [exact P|reflexivity].
Qed.
Print Assumptions C147_scale_refuted.
Transparent api_mapping generators.
Example C147_nonvacuous :
  (exists t, reads_as flash [MkExpr false false "q"; MkExpr false false "k"; MkExpr false false "v"] [MkKw (Some "causal") (MkExpr false false "True"); MkKw (Some "return_attn_probs") (MkExpr false false "True")] t /\
    (forall v, ~ In (None, v) t) /\ free_of t attention_foreign /\ passes t "return_attn_probs" "True") /\
  (exists t, reads_as unpadded [MkExpr false false "q"; MkExpr false false "k"; MkExpr false false "v"; MkExpr false false "a"; MkExpr false false "b"; MkExpr false false "m"; MkExpr false false "n"] [MkKw (Some "softmax_scale") (MkExpr false false "sc")] t /\
    (forall v, ~ In (None, v) t) /\ free_of t attention_foreign /\ passes t "softmax_scale" "sc") /\
  (exists t, reads_as unpadded [MkExpr false false "x"; MkExpr false false "k"; MkExpr false false "v"; MkExpr false false "a"; MkExpr false false "b"; MkExpr false false "m"; MkExpr false false "n"] [] t /\
    (forall v, ~ In (None, v) t) /\ free_of t attention_foreign /\ (forall v, ~ passes t "softmax_scale" v) /\ passes t "q" "x") /\
  square_root 64 8 /\ flash_scale 64 (1 # 8).
Proof.
  split; [|split; [|split]].
  - eexists. split; [eexists; split; vm_compute; reflexivity|]. split; [nowhere|]. split; [unfold attention_foreign; nowhere|there].
  - eexists. split; [eexists; split; vm_compute; reflexivity|]. split; [nowhere|]. split; [unfold attention_foreign; nowhere|there].
  - eexists. split; [eexists; split; vm_compute; reflexivity|]. split; [nowhere|]. split; [unfold attention_foreign; nowhere|]. split; [nowhere|there].
  - split; split; reflexivity.
Qed.
