(** Proofs: when converting a call raises (C111). *)
From Coq Require Import Lia.
From Verif Require Import PyStr PyStrFacts PyDict UtilsFile Args ArgsSpec TablesData Lookup LookupFacts LookupSpec Ast Walk
  ImportPass BasicPass Generate GenerateData GenerateRows GenerateSpec GenerateFacts Shipped ShippedSpec ShippedFacts ShippedCalls.
Opaque api_mapping attribute_mapping alias_mapping wildcard_mapping matcher_classes torch_package_mapping generators.

(** Classes that print the call again with another name. *)
Definition reprinting : list string :=
  ["ChangePrefixMatcher"; "ChangeAPIMatcher"; "EinopsTorchMatcher"; "TransformersGenericMatcher"; "CheckPointMatcher"].
Lemma reprinted_rows : forallb (fun r => negb (match r_matcher r with Some m => mem_str m reprinting | None => false end)
    || match unsupport_args (r_entry r) with [] => true | _ => false end) (api_mapping ++ wildcard_mapping) = true.
Proof. vm_compute. reflexivity. Qed.
Lemma prefix_named : forallb (fun r => negb (match r_matcher r with Some m => String.eqb m "ChangePrefixMatcher" | None => false end)
    || match change_prefix_name false (r_name r) "" with Some _ => true | None => false end) api_mapping = true.
Proof. vm_compute. reflexivity. Qed.
Lemma rename_returns : forallb (fun r => negb (match r_matcher r with Some m => String.eqb m "ChangeAPIMatcher" | None => false end)
    || get_paddle_api_returns (r_name r) "ChangeAPIMatcher" (r_entry r)) api_mapping = true.
Proof. vm_compute. reflexivity. Qed.

Lemma parse_kwargs_some e l d : unsupport_args e = [] -> parse_kwargs_from e true l d <> None.
Proof.
  intros U. revert d. induction l as [|n l IH]; intros d; cbn [parse_kwargs_from]; [discriminate|].
  rewrite U. destruct (kw_arg n); cbn [negb key_in]; apply IH.
Qed.
Lemma reemit_code dropped e api args kws : unsupport_args e = [] -> exists s, reemit dropped e api args kws = Code s.
Proof.
  intros U. unfold reemit, parse_kwargs. destruct (parse_kwargs_from e true kws []) eqn:E; [eexists; reflexivity|].
  exfalso. exact (parse_kwargs_some e kws [] U E).
Qed.

Section Raise.
Variable t : tools.
(** The parser rejects some text. *)
Definition rejected (x : string) : Prop := exists code, parse t code = Raise x.
Lemma as_nodes_raise code l w x : as_nodes t code l w = Raise x -> rejected x.
Proof. unfold as_nodes. destruct (parse t code) eqn:E; [discriminate|]. intros [= <-]. exists code. exact E. Qed.

Lemma reprinted_name api a c r origin : get_api_matcher api = LMatcher a c r -> In c reprinting ->
  exists p, paddle_name t (MkMatcher a c r origin) = Ok p.
Proof.
  intros L I. unfold paddle_name. cbn [m_class m_row m_api m_origin]. pose proof L as L'. apply get_matcher_found in L' as (_ & M & _).
  destruct I as [<-|[<-|[<-|[<-|[<-|[]]]]]]; cbn [String.eqb Ascii.eqb Bool.eqb]; try (eexists; reflexivity).
  - destruct (min_mode t); [eexists; reflexivity|]. destruct (plain_row_of api a _ r _ L M eq_refl) as (_ & I & RN).
    pose proof (row_fact _ r _ prefix_named I M) as K. cbv beta in K. change (change_prefix_name false a origin) with (change_prefix_name false a "").
    rewrite <- RN. destruct (change_prefix_name false (r_name r) ""); [eexists; reflexivity|discriminate].
  - destruct (plain_row_of api a _ r _ L M eq_refl) as (_ & I & RN).
    pose proof (row_fact _ r _ rename_returns I M) as K. cbv beta in K. rewrite <- RN, K. eexists; reflexivity.
Qed.
Lemma reprinted_code api a c r : get_api_matcher api = LMatcher a c r -> In c reprinting ->
  exists f, printed_again c = Some f /\ forall nm args kws, exists s, f (r_entry r) nm args kws = Code s.
Proof.
  intros L I.
  assert (U : unsupport_args (r_entry r) = []).
  { apply get_matcher_found in L as (_ & M & _ & R). assert (J : In r (api_mapping ++ wildcard_mapping)) by (apply in_or_app; destruct R as [[R _]|[R _]]; auto).
    pose proof (proj1 (forallb_forall _ _) reprinted_rows r J) as H. cbv beta in H. rewrite M, (proj2 (mem_str_In _ _) I) in H. cbn [negb orb] in H.
    destruct (unsupport_args (r_entry r)); [reflexivity|discriminate]. }
  destruct I as [<-|[<-|[<-|[<-|[<-|[]]]]]]; (eexists; split; [reflexivity|]; intros nm args kws; apply reemit_code, U).
Qed.
Lemma reprinted_call api a c r origin args kws st w x : get_api_matcher api = LMatcher a c r -> In c reprinting ->
  shipped_call t (MkMatcher a c r origin) args kws st w = Raise x -> rejected x.
Proof.
  intros L I. unfold shipped_call. destruct (reprinted_name api a c r origin L I) as [p P]. rewrite P. cbn [bind].
  unfold nodes_of. cbn [m_class m_row]. destruct (reprinted_code api a c r L I) as (f & F & C). rewrite F.
  destruct (C (text_of (asked_name (MkMatcher a c r origin) None p)) (exprs_of t args) (keywords_of t kws)) as [s S]. rewrite S. unfold from_code.
  destruct (as_nodes t s [] w) as [[[? ?] ?]|y] eqn:E; [discriminate|]. cbn [bind in_order]. intros [= <-]. eapply as_nodes_raise, E.
Qed.
Lemma reprinted_method api a c r origin f args kws st w x : get_api_matcher api = LMatcher a c r -> In c reprinting ->
  shipped_method t (MkMatcher a c r origin) f args kws st w = Raise x -> rejected x.
Proof.
  intros L I. unfold shipped_method. cbv zeta. destruct (reprinted_name api a c r origin L I) as [p P]. cbn [m_class m_row].
  destruct (reprinted_code api a c r L I) as (g & F & C).
  destruct (String.eqb_spec c "TensorRenameMatcher") as [->|_]; [cbn in I; intuition discriminate|].
  destruct (String.eqb_spec c "ChangePrefixMatcher") as [->|N].
  - injection F as <-. rewrite P. cbn [bind].
    assert (Q : exists nm, (if min_mode t then Ok (Some (source t f)) else Ok (stored_name (Some (receiver_of t f)) p)) = Ok nm) by (destruct (min_mode t); eexists; reflexivity).
    destruct Q as [nm Q]. rewrite Q. cbn [bind]. destruct (C (text_of nm) (exprs_of t args) (keywords_of t kws)) as [s S]. rewrite S. unfold from_code.
    destruct (as_nodes t s [] w) as [[[? ?] ?]|y] eqn:E; [discriminate|]. cbn [bind in_order]. intros [= <-]. eapply as_nodes_raise, E.
  - rewrite P. cbn [bind].
    destruct (String.eqb_spec c "TensorMaxMatcher") as [->|_]; [cbn in I; intuition discriminate|].
    destruct (String.eqb_spec c "TensorMinMatcher") as [->|_]; [cbn in I; intuition discriminate|].
    destruct (String.eqb_spec c "TensorStftMatcher") as [->|_]; [cbn in I; intuition discriminate|].
    unfold nodes_of. cbn [m_class m_row]. rewrite F.
    destruct (C (text_of (asked_name (MkMatcher a c r origin) (Some (receiver_of t f)) p)) (exprs_of t args) (keywords_of t kws)) as [s S]. rewrite S. unfold from_code.
    destruct (as_nodes t s [] w) as [[[? ?] ?]|y] eqn:E; [discriminate|]. cbn [bind in_order]. intros [= <-]. eapply as_nodes_raise, E.
Qed.

(** Generated calls. *)
Definition own_nodes : list string :=
  ["HubLoadMatcher"; "TRFMPreTrainedModelMatcher"; "Chain_MatmulMatcher"; "MakeTMatcher"; "SetUpMatcher"; "TensorSplitMatcher";
   "FAApplyRotaryEmbFuncMatcher"; "WeightsMatcher"; "CUDAAndCppExtensionMatcher"; "EinopsTorchMatcher"; "TransformersGenericMatcher";
   "ChangePrefixMatcher"; "ChangeAPIMatcher"; "CheckPointMatcher"; "TensorRenameMatcher"; "TensorMaxMatcher"; "TensorMinMatcher"; "TensorStftMatcher"].
Lemma own_apart : forallb (fun x => match dget String.eqb x generators with None => true | Some _ => false end) own_nodes = true.
Proof. vm_compute. reflexivity. Qed.
Lemma strict_named : forallb (fun r => match generator r with
    | Some (true, _) => has_name (r_entry r)
    | _ => true end) api_mapping = true.
Proof. vm_compute. reflexivity. Qed.
Lemma generated_not_own c g : dget String.eqb c generators = Some g -> ~ In c own_nodes.
Proof.
  intros G I. pose proof (proj1 (forallb_forall _ _) own_apart c I) as H. cbv beta in H. rewrite G in H. discriminate.
Qed.
Lemma not_own c x : ~ In c own_nodes -> In x own_nodes -> String.eqb c x = false.
Proof. intros N I. apply String.eqb_neq. intros ->. contradiction. Qed.
Ltac own := match goal with N : ~ In ?c own_nodes |- context [String.eqb ?c ?x] =>
  rewrite (not_own c x N) by (cbn; tauto) end.

Section Generated.
Variables (api a c : string) (r : row) (origin : string) (g : bool * block).
Hypothesis L : get_api_matcher api = LMatcher a c r.
Hypothesis G : generator r = Some g.
Let m := MkMatcher a c r origin.
Lemma gen_class : dget String.eqb c generators = Some g /\ In r api_mapping /\ r_name r = a.
Proof.
  pose proof L as L'. apply get_matcher_found in L' as (_ & M & _ & R). unfold generator in G. destruct (_ || _); [discriminate|]. rewrite M in G.
  split; [exact G|]. destruct R as [R|[R _]]; [exact R|]. exfalso.
  assert (W : forallb (fun r => match r_matcher r with Some x => mem_str x own_nodes | None => false end) wildcard_mapping = true) by (vm_compute; reflexivity).
  pose proof (proj1 (forallb_forall _ _) W r R) as H. cbv beta in H. rewrite M in H. apply mem_str_In in H. exact (generated_not_own c g G H).
Qed.
Lemma gen_name : paddle_name t m = Ok (paddle_api (r_entry r)).
Proof.
  destruct gen_class as (D & I & RN). pose proof (generated_not_own c g D) as N. unfold paddle_name. cbn [m_class m_row m_api m_origin m].
  repeat own. unfold asserting. rewrite D. destruct g as [st b].
  destruct st; [|reflexivity]. pose proof (proj1 (forallb_forall _ _) strict_named r I) as H. cbv beta in H. rewrite G in H. rewrite H. reflexivity.
Qed.
Lemma gen_printed : printed_again c = None.
Proof.
  destruct gen_class as (D & _). pose proof (generated_not_own c g D) as N. unfold printed_again. cbn [dget]. repeat own. reflexivity.
Qed.
Lemma gen_special recv name args kws w : special_nodes t m recv name args kws w = None.
Proof.
  destruct gen_class as (D & _). pose proof (generated_not_own c g D) as N. unfold special_nodes. cbn [m_class m]. cbv zeta. repeat own. reflexivity.
Qed.
Lemma gen_base recv args kws w x : regular r recv (exprs_of t args) (keywords_of t kws) ->
  base_nodes t m recv args kws w = Raise x -> rejected x \/ (x = "KeyError" /\ fragile r (exprs_of t args) (keywords_of t kws)).
Proof.
  intros (Q1 & Q2 & Q3 & Q4). destruct gen_class as (D & I & RN).
  pose proof (row_result r g recv _ _ (name_counters w) I G Q1 Q2 Q3 Q4) as R.
  unfold base_nodes, paddle_nodes in *. cbn [m_row m_class m].
  destruct (fst (parse_args_and_kwargs _ _ _ _ _)) as [d| | |]; cbn [from_parsed]; try discriminate.
  - rewrite D. destruct g as [st b]. cbn [fst snd] in *. unfold from_generator. cbv zeta. cbn [m_row m_class m_api].
    rewrite run_generator_exact in R. unfold context_of in R. rewrite RN in R.
    destruct (run_generator _ b d (name_counters w)) as [[[g' i'] h]|y]; cbn [andthen fst] in R.
    + destruct (enable_if _ _ _ _). destruct g'; try discriminate. intros H. left. eapply as_nodes_raise, H.
    + intros [= <-]. right. exact R.
  - intros [= <-]. right. exact R.
Qed.
Lemma gen_call args kws st w x : regular r None (exprs_of t args) (keywords_of t kws) ->
  shipped_call t m args kws st w = Raise x -> rejected x \/ (x = "KeyError" /\ fragile r (exprs_of t args) (keywords_of t kws)).
Proof.
  intros Q. unfold shipped_call. rewrite gen_name. cbn [bind]. unfold nodes_of.
  assert (E : m_class m = c) by reflexivity. rewrite E, gen_printed, gen_special.
  destruct (base_nodes t m None args kws w) as [[[? ?] ?]|y] eqn:B; [discriminate|]. cbn [bind in_order]. intros [= <-].
  eapply gen_base; [exact Q|exact B].
Qed.
Lemma gen_method f args kws st w x : regular r (Some (receiver_of t f)) (exprs_of t args) (keywords_of t kws) ->
  shipped_method t m f args kws st w = Raise x -> rejected x \/ (x = "KeyError" /\ fragile r (exprs_of t args) (keywords_of t kws)).
Proof.
  intros Q. unfold shipped_method. cbv zeta. assert (E : m_class m = c) by reflexivity. rewrite E.
  destruct gen_class as (D & _). pose proof (generated_not_own c g D) as N. repeat own.
  rewrite gen_name. cbn [bind]. unfold nodes_of. rewrite E, gen_printed, gen_special.
  destruct (base_nodes t m (Some (receiver_of t f)) args kws w) as [[[? ?] ?]|y] eqn:B; [discriminate|]. cbn [bind in_order]. intros [= <-].
  eapply gen_base; [exact Q|exact B].
Qed.
End Generated.
End Raise.
