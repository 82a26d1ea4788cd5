(** C160: softmax of sparse tensors. *)
From Verif Require Import PyStr PyStrFacts PyDict PyDictFacts Ast Args ArgsFacts UtilsFile TablesData Generate GenerateData GenerateRel GenerateRows GenericBridge FlagSpec FlagFacts DatasetSpec DatasetFacts DatasetCalls OutSpec OutFacts LrSpec LrFacts PropertiesLr AdamFacts FlashSpec FlashFacts PropertiesFlash ParallelSpec PropertiesParallel SoftSpec.
Opaque api_mapping generators unique_name.
Notation softmax := "torch.sparse.softmax".

Lemma soft_plain c d i q s : dget String.eqb "dtype" d = None -> exec c g_GenericMatcher (st [] d None i false) = Ret (Some (Text q), s) ->
  exists q' s1, exec c g_SparseSoftmaxMatcher (st [] d None i false) = Ret (Some (Text q'), s1) /\ render q' = render q.
Proof.
  intros D Q. eexists; eexists; split; [opened g_SparseSoftmaxMatcher; unfold st; eapply r_seq; [go|]; eapply r_seq; [go|]|].
  - eapply r_seq; [eapply r_let; [eapply r_cat; [go|eapply r_generate; [finds|exact Q]]|puts]|]. go.
  - txo.
Qed.
Lemma soft_cast c d i x v q s : dget String.eqb "dtype" d = Some v -> dget String.eqb "input" d = Some x ->
  exec c g_GenericMatcher (st [] (dset String.eqb "input" (lit (snd (unique_name i "tmp_val"))) (ddel String.eqb "dtype" d)) None (fst (unique_name i "tmp_val")) false) = Ret (Some (Text q), s) ->
  exists q' s1, exec c g_SparseSoftmaxMatcher (st [] d None i false) = Ret (Some (Text q'), s1) /\
    render q' = cast_line (snd (unique_name i "tmp_val")) (render x) (render v) ++ render q.
Proof.
  intros D X Q. assert (X' : dget String.eqb "input" (ddel String.eqb "dtype" d) = Some x) by (rewrite (ddel_get_other _ String.eqb_spec); [exact X|discriminate]).
  eexists; eexists; split; [opened g_SparseSoftmaxMatcher; unfold st; eapply r_seq; [go|]; eapply r_seq|].
  - eapply r_choose_yes; [go|]. eapply r_seq; [go|]. named. go.
  - eapply r_seq; [eapply r_let; [eapply r_cat; [go|eapply r_generate; [finds|exact Q]]|puts]|]. go.
  - unfold cast_line. txo.
Qed.
Lemma soft_generic c e d t dropped new i :
  row_of c = e -> api_known c None "paddle.sparse.nn.functional.softmax" -> kwargs_change e = renaming_of soft_names -> paddle_default_kwargs e = [] ->
  made_of (texts d) t dropped new -> NoDup (dkeys d) -> free_of t soft_foreign -> (forall k, In k (map fst new) -> k = "input") -> ~ In "dtype" (dkeys d) ->
  exists q s l, exec c g_GenericMatcher (st [] d None i false) = Ret (Some (Text q), s) /\ render q = call_of "paddle.sparse.nn.functional.softmax" l /\ renamed_as soft_names (texts d) l.
Proof.
  intros E A C D M N F W T.
  assert (K : forall k, In k soft_foreign -> ~ In k (dkeys d)).
  { apply (made_fresh d t dropped new soft_foreign M F). intros k J I. apply W in I as ->. unfold soft_foreign in J. cbn [In] in J. decompose [or] J; try contradiction; discriminate. }
  assert (U : forall k, In k generic_unused -> ~ In k (dkeys d)) by (intros k J; apply K; unfold generic_unused in J; unfold soft_foreign; cbn [In] in *; tauto).
  assert (Z : renamed_as soft_names (texts d) (texts (change_rope (row_of c) [] d))).
  { apply renamed_texts; [rewrite E; exact C|unfold soft_names; easy_lists|unfold soft_names; distinct|exact N|].
    intros x J. apply K. unfold soft_names in J. unfold soft_foreign. destruct J as [<-|[<-|[]]]; cbn [In snd]; tauto. }
  assert (Y : settled c d = change_rope (row_of c) [] d) by (unfold settled, default_ropes; rewrite (unused_free (row_of c) generic_unused d U); rewrite E, D; reflexivity).
  assert (X : forall k, In k ["dtype"; "pin_memory"; "requires_grad"; "out"] -> dget String.eqb k (settled c d) = None).
  { intros k J. rewrite Y. destruct (dget String.eqb k (change_rope (row_of c) [] d)) as [v|] eqn:V; [|reflexivity]. exfalso.
    apply (dget_some_in _ String.eqb_spec) in V. apply (in_map (fun kv => (fst kv, render (snd kv)))) in V. destruct Z as [_ Z]. apply Z in V as (j & I & Q). cbn [fst] in Q.
    assert (L : In j (dkeys d)) by (rewrite <- texts_keys; apply (in_map fst) in I; exact I).
    unfold called, soft_names in Q. cbn [dget] in Q.
    destruct (String.eqb_spec j "input"); [subst; cbn [In] in J; decompose [or] J; try contradiction; discriminate|].
    destruct (String.eqb_spec j "dim"); [subst; cbn [In] in J; decompose [or] J; try contradiction; discriminate|].
    subst k. destruct J as [<-|J]; [exact (T L)|]. apply (K j); [unfold soft_foreign; cbn [In] in *; tauto|exact L]. }
  destruct (generic_call c d i false _ A) as (q & s & V & R); [apply X; cbn; tauto|apply X; cbn; tauto|apply X; cbn; tauto|apply X; cbn; tauto|].
  exists q, s, (texts (settled c d)). split; [exact V|]. split; [exact R|]. rewrite Y. exact Z.
Qed.

(** Without a type of the elements, the arguments get their new names. *)
Theorem C160_plain :
  forall args kwargs t i,
    reads_as softmax args kwargs t -> (forall v, ~ In (None, v) t) -> free_of t soft_foreign -> (forall v, ~ passes t "dtype" v) ->
    exists q u m l, answer softmax None args kwargs i = Some (Ret (Converted q u)) /\ render q = call_of "paddle.sparse.nn.functional.softmax" l /\
      made_of m t [] [] /\ renamed_as soft_names m l.
Proof.
  intros args kwargs t i R S F P.
  assert (J : exists s r, find (fun r => String.eqb (r_name r) softmax) api_mapping = Some r /\ generator r = Some (s, g_SparseSoftmaxMatcher) /\
    paddle_api (r_entry r) = Some "paddle.sparse.nn.functional.softmax" /\ kwargs_change (r_entry r) = renaming_of soft_names /\ paddle_default_kwargs (r_entry r) = []) by (row_found; repeat split; reflexivity).
  destruct J as (s & r & Fr & G & A & C & D). pose proof (keys_once _ args kwargs t R S) as N. destruct (answer_call _ r s _ args kwargs t i Fr G R) as (c & E & Q & H).
  pose proof (made_start t N S) as M. pose proof (not_got _ args kwargs t R S "dtype" P) as T.
  assert (T' : ~ In "dtype" (dkeys (start t))) by (apply (dget_none_iff _ String.eqb_spec); exact T).
  destruct (soft_generic c _ (start t) t [] [] i E (Q _ A) C D M N F ltac:(intros k []) T') as (q & s1 & l & V & B & Z).
  destruct (soft_plain c (start t) i q s1 T V) as (q' & s2 & W & B'). rewrite B in B'.
  exists q', (utils s2), (texts (start t)), l. split; [apply H; [exact W|rewrite B'; apply call_bracket]|]. split; [exact B'|]. split; [exact M|exact Z].
Qed.
Print Assumptions C160_plain.
(** With one, the tensor is converted first, under a new name, and the call gets that name and no type. *)
Theorem C160_cast :
  forall args kwargs t x v i,
    reads_as softmax args kwargs t -> (forall v, ~ In (None, v) t) -> free_of t soft_foreign -> passes t "input" x -> passes t "dtype" v ->
    exists q u y m l, answer softmax None args kwargs i = Some (Ret (Converted q u)) /\
      render q = cast_line ("tmp_val" ++ y) x v ++ call_of "paddle.sparse.nn.functional.softmax" l /\
      made_of m t ["dtype"] [("input", "tmp_val" ++ y)] /\ renamed_as soft_names m l.
Proof.
  intros args kwargs t x v i R S F X P.
  assert (J : exists s r, find (fun r => String.eqb (r_name r) softmax) api_mapping = Some r /\ generator r = Some (s, g_SparseSoftmaxMatcher) /\
    paddle_api (r_entry r) = Some "paddle.sparse.nn.functional.softmax" /\ kwargs_change (r_entry r) = renaming_of soft_names /\ paddle_default_kwargs (r_entry r) = []) by (row_found; repeat split; reflexivity).
  destruct J as (s & r & Fr & G & A & C & D). pose proof (keys_once _ args kwargs t R S) as N. destruct (answer_call _ r s _ args kwargs t i Fr G R) as (c & E & Q & H).
  destruct (unique_starts i "tmp_val") as (y & Y).
  set (d := dset String.eqb "input" (lit (snd (unique_name i "tmp_val"))) (ddel String.eqb "dtype" (start t))).
  assert (M : made_of (texts d) t ["dtype"] [("input", "tmp_val" ++ y)]).
  { pose proof (made_put t (ddel String.eqb "dtype" (start t)) ["dtype"] [] "input" (lit (snd (unique_name i "tmp_val"))) (made_out t (start t) [] [] "dtype" (made_start t N S) ltac:(intros [])) ltac:(intros [])) as M.
    unfold lit in M. rewrite render_one in M. cbn [content List.app] in M. rewrite Y in M. unfold d, lit. rewrite Y. exact M. }
  assert (Nd : NoDup (dkeys d)) by (rewrite <- texts_keys; exact (proj1 M)).
  assert (T : ~ In "dtype" (dkeys d)).
  { rewrite <- texts_keys. intros I. apply in_map_iff in I as ((k & w) & K & I). cbn [fst] in K. subst k. apply (proj2 M) in I as [[I|[]]|(I & _)]; [discriminate I|]. apply I. left. reflexivity. }
  destruct (soft_generic c _ d t _ _ (fst (unique_name i "tmp_val")) E (Q _ A) C D M Nd F ltac:(intros k [<-|[]]; reflexivity) T) as (q & s1 & l & V & B & Z).
  destruct (soft_cast c (start t) i _ _ q s1 (got _ args kwargs t R "dtype" v ltac:(discriminate) P) (got _ args kwargs t R "input" x ltac:(discriminate) X) V) as (q' & s2 & W & B').
  rewrite B, !render_one, Y in B'. cbn [content] in B'.
  exists q', (utils s2), y, (texts d), l. split; [apply H; [exact W|]|split; [exact B'|split; [exact M|exact Z]]].
  rewrite B', mem_char_app, call_bracket. apply Bool.orb_true_r.
Qed.
Print Assumptions C160_cast.
Transparent api_mapping generators unique_name.
Example C160_nonvacuous :
  (exists t, reads_as softmax [MkExpr false false "a"; MkExpr false false "1"] [] t /\ (forall v, ~ In (None, v) t) /\ free_of t soft_foreign /\ (forall v, ~ passes t "dtype" v)) /\
  (exists t, reads_as softmax [MkExpr false false "a"; MkExpr false false "1"] [MkKw (Some "dtype") (MkExpr false false "'float64'")] t /\ (forall v, ~ In (None, v) t) /\ free_of t soft_foreign /\ passes t "input" "a" /\ passes t "dtype" "'float64'").
Proof.
  split; (eexists; split; [eexists; split; vm_compute; reflexivity|]); (split; [nowhere|]); (split; [intros k v I J; cbn [In] in J; decompose [or] J; try contradiction; match goal with H : (_, _) = (_, _) |- _ => injection H as <- <- end; unfold soft_foreign in I; cbn [In] in I; decompose [or] I; try contradiction; discriminate|]).
  - nowhere.
  - split; there.
Qed.
