(** Every API of OwnRules.v is answered by its rule. *)
From Verif Require Import PyStr PyStrFacts PyDict PyDictFacts UtilsFile Args ArgsSpec GenericSpec TablesData Lookup Ast BasicPass
  ArgsFacts Generate GenerateData GenericBridge GenericFacts Shipped ShippedSpec ShippedFacts ShippedCalls OwnRules.
From Verif Require Special.
Opaque api_mapping attribute_mapping alias_mapping wildcard_mapping matcher_classes torch_package_mapping.

Definition own_class : list (string * string) :=
  [("torch.Tensor.max", "TensorMaxMatcher"); ("torch.Tensor.min", "TensorMinMatcher"); ("torch.Tensor.rename", "TensorRenameMatcher");
   ("torch.Tensor.split", "TensorSplitMatcher"); ("torch.Tensor.stft", "TensorStftMatcher"); ("torch.chain_matmul", "Chain_MatmulMatcher");
   ("torch.hub.load", "HubLoadMatcher"); ("transformers.PreTrainedModel", "TRFMPreTrainedModelMatcher");
   ("torch.testing.make_tensor", "MakeTMatcher"); ("setuptools.setup", "SetUpMatcher");
   ("flash_attn.layers.rotary.apply_rotary_emb_func", "FAApplyRotaryEmbFuncMatcher");
   ("torch.utils.cpp_extension.CUDAExtension", "CUDAAndCppExtensionMatcher"); ("torch.utils.cpp_extension.CppExtension", "CUDAAndCppExtensionMatcher")].
Definition own_name : list (string * option string) :=
  [("torch.Tensor.max", Some "paddle.Tensor.max"); ("torch.Tensor.min", Some "paddle.Tensor.min");
   ("torch.Tensor.split", Some "paddle.Tensor.split"); ("torch.Tensor.stft", Some "paddle.Tensor.stft");
   ("torch.hub.load", Some "paddle.hub.load"); ("transformers.PreTrainedModel", Some "paddleformers.transformers.PretrainedModel");
   ("torch.utils.cpp_extension.CUDAExtension", Some "paddle.utils.cpp_extension.CUDAExtension");
   ("torch.utils.cpp_extension.CppExtension", Some "paddle.utils.cpp_extension.CppExtension")].
Definition opt_eqb (a b : option string) : bool :=
  match a, b with Some x, Some y => String.eqb x y | None, None => true | _, _ => false end.
Lemma opt_eqb_ok a b : opt_eqb a b = true -> a = b.
Proof. destruct a, b; cbn; try discriminate; [|reflexivity]. intros H. apply String.eqb_eq in H. congruence. Qed.
Definition own_row (r : row) : bool :=
  match dget String.eqb (r_name r) own_class with
  | Some c => opt_eqb (r_matcher r) (Some c) && match dget String.eqb (r_name r) own_name with Some p => opt_eqb (paddle_api (r_entry r)) p | None => true end
  | None => true
  end.
Lemma own_rows : forallb own_row (api_mapping ++ wildcard_mapping)%list = true.
Proof. vm_compute. reflexivity. Qed.
Lemma weights_rows : forallb (fun r => negb (opt_eqb (r_matcher r) (Some "WeightsMatcher")) || match paddle_api (r_entry r) with Some p => negb (String.eqb p "") | None => false end)
  (api_mapping ++ wildcard_mapping)%list = true.
Proof. vm_compute. reflexivity. Qed.
Lemma found_in api a c r : get_api_matcher api = LMatcher a c r -> r_matcher r = Some c /\ In r (api_mapping ++ wildcard_mapping)%list.
Proof. intros L. apply get_matcher_found in L as (_ & M & _ & H). split; [exact M|]. apply in_or_app. tauto. Qed.
Lemma own_found api a c r n : get_api_matcher api = LMatcher a c r -> r_name r = n ->
  match dget String.eqb n own_class with
  | Some d => c = d /\ match dget String.eqb n own_name with Some p => paddle_api (r_entry r) = p | None => True end
  | None => True
  end.
Proof.
  intros L N. destruct (found_in _ _ _ _ L) as [M I]. pose proof (proj1 (forallb_forall _ _) own_rows r I) as H. unfold own_row in H. rewrite N in H.
  destruct (dget String.eqb n own_class) as [d|]; [|exact Logic.I]. apply andb_prop in H as [H1 H2]. apply opt_eqb_ok in H1. split; [congruence|].
  destruct (dget String.eqb n own_name); [|exact Logic.I]. apply opt_eqb_ok, H2.
Qed.

Section Own.
Variable t : tools.
Lemma answer_says c r x w w0 a l w' : r_matcher r = Some c -> mem_str c with_helper = true \/ (forall s, x <> Special.Produce true s) /\ x <> Special.Leave true ->
  helpers w0 = helpers w -> from_answer t c x w0 = Ok (a, l, w') -> says t r w x a l w' /\ cpp_extensions w' = cpp_extensions w0.
Proof.
  intros M HH HW H.
  assert (W : forall h l1 w1, (h = true -> mem_str c with_helper = true) -> enable_if t h c w0 = (l1, w1) -> with_its_helper t r h w l1 w1 /\ cpp_extensions w1 = cpp_extensions w0).
  { intros h l1 w1 K E. unfold with_its_helper. destruct h; cbn [enable_if] in E.
    - unfold enable in E. rewrite (K eq_refl) in E. cbn [andb] in E.
      destruct (String.eqb (helper_code t c) "") eqn:C; cbn [negb] in E; injection E as <- <-; (split; [|reflexivity]); exists c; (split; [exact M|]); cbn [andb]; rewrite C; cbn [negb helpers]; rewrite HW; auto.
    - injection E as <- <-. split; [|reflexivity]. exists c. split; [exact M|]. cbn [andb]. auto. }
  destruct x as [h s| | |h|y]; cbn [from_answer] in H; try discriminate.
  - destruct (enable_if t h c w0) as [l1 w1] eqn:E. unfold as_nodes in H. destruct (parse t s) as [ns|] eqn:P; [|discriminate]. cbn [bind] in H. injection H as <- <- <-.
    destruct (W h l1 w1) as [W1 W2]; [|exact E|split; [|exact W2]; apply says_code; assumption].
    intros ->. destruct HH as [HH|[HH _]]; [exact HH|]. exfalso. eapply HH. reflexivity.
  - injection H as <- <- <-. split; [|reflexivity]. apply says_not_supported. exact HW.
  - injection H as <- <- <-. split; [|reflexivity]. apply says_other_api. exact HW.
  - destruct (enable_if t h c w0) as [l1 w1] eqn:E. injection H as <- <- <-.
    destruct (W h l1 w1) as [W1 W2]; [|exact E|split; [|exact W2]; apply says_unchanged; assumption].
    intros ->. destruct HH as [HH|[_ HH]]; [exact HH|]. exfalso. apply HH. reflexivity.
Qed.
(** A rule that raises nothing and whose code is read gives an answer. *)
Definition readable (x : Special.answer) : Prop :=
  (forall e, x <> Special.Raises e) /\ (forall h s, x = Special.Produce h s -> exists ns, parse t s = Ok ns).
Lemma answer_exists c x w : readable x -> exists a l w', from_answer t c x w = Ok (a, l, w').
Proof.
  intros [R P]. destruct x as [h s| | |h|y]; cbn [from_answer].
  - destruct (enable_if t h c w) as [l1 w1]. destruct (P h s eq_refl) as [ns N]. unfold as_nodes. rewrite N. cbn [bind]. eauto.
  - eauto.
  - eauto.
  - destruct (enable_if t h c w) as [l1 w1]. eauto.
  - exfalso. eapply R. reflexivity.
Qed.

(** ** The generic code of two of the classes *)
Lemma loose_named names args kwargs d : Special.loose_kwargs kwargs (Special.loose_args names args []) = Some d -> ~ In None (dkeys d).
Proof.
  assert (A : forall names args d0, ~ In None (dkeys d0) -> ~ In None (dkeys (Special.loose_args names args d0))).
  { induction names0 as [|n names0 IH]; intros [|x args0] d0 N; cbn [Special.loose_args]; try exact N. apply IH. intros I.
    apply (dset_keys_iff _ key_eqb_spec) in I as [I|I]; [discriminate|exact (N I)]. }
  assert (B : forall kwargs d0, ~ In None (dkeys d0) -> Special.loose_kwargs kwargs d0 = Some d -> ~ In None (dkeys d)).
  { induction kwargs0 as [|n kwargs0 IH]; intros d0 N; cbn [Special.loose_kwargs]; [intros [= <-]; exact N|]. destruct (kw_arg n) as [k|]; [|discriminate].
    apply IH. intros I. apply (dset_keys_iff _ key_eqb_spec) in I as [I|I]; [discriminate|exact (N I)]. }
  apply B, A. intros [].
Qed.
Lemma weights_named d : ~ In None (dkeys d) -> ~ In None (dkeys (Special.weights_table d)).
Proof.
  intros N. unfold Special.weights_table.
  assert (D : ~ In None (dkeys (if dmem key_eqb (Some "weights") d then ddel key_eqb (Some "weights") d else d))).
  { destruct (dmem _ _ _); [|exact N]. intros I. apply N. eapply ddel_keys_sub; first [exact I|exact key_eqb_spec]. }
  destruct (match dget key_eqb (Some "weights") d with Some w => _ | None => false end); [|exact D].
  intros I. apply (dset_keys_iff _ key_eqb_spec) in I as [I|I]; [discriminate|exact (D I)].
Qed.
Lemma generic_answer m strict d w p : paddle_api (r_entry (m_row m)) = Some p -> ~ In None (dkeys d) ->
  exists i, forall w0, name_counters w0 = name_counters w ->
  from_generator t m strict g_GenericMatcher None d w0 =
  as_nodes t (generic_code (r_entry (m_row m)) p (snd (unique_name (name_counters w) "out")) d) [] (MkWorld i (helpers w0) (cpp_extensions w0)).
Proof.
  intros P N. set (c := MkCtx (r_entry (m_row m)) (m_api m) None (match dget String.eqb (m_api m) convert_tensors with Some l => l | None => [] end) strict).
  destruct (generic_generates c d (name_counters w) N) as (q & Q1 & Q2).
  { unfold asserts, c. cbn [row_of]. rewrite P. apply Bool.andb_false_r. }
  destruct (run_generator_ret c g_GenericMatcher d (name_counters w) _ Q1) as (i & h & RG & HH). specialize (HH q false eq_refl). subst h.
  exists i. intros w0 E. unfold from_generator. fold c. cbv zeta. rewrite E, RG. cbn [enable_if]. rewrite Q2. unfold api_text, c. cbn [row_of].
  unfold initial_api. cbn [receiver]. rewrite P. reflexivity.
Qed.

(** ** The theorems *)
Ltac class_of L N := let E := fresh "E" in pose proof (own_found _ _ _ _ _ L N) as E;
  match type of E with match ?x with _ => _ end => let y := eval vm_compute in x in change x with y in E end; cbv beta iota in E;
  let c := fresh "C" in let p := fresh "P" in destruct E as [c p]; 
  match type of p with match ?x with _ => _ end => let y := eval vm_compute in x in change x with y in p end; cbv beta iota in p; subst.
Lemma from_in_order x (k : list node * list node) a kept l w' : in_order (let* r := x in Ok (r, k)) = Ok (a, kept, l, w') -> x = Ok (a, l, w').
Proof. intros H. apply in_order_ok in H. destruct x as [[[a0 l0] w0]|]; [|discriminate]. cbn [bind] in H. injection H as <- <- <- _. reflexivity. Qed.
Lemma to_in_order x (k : list node * list node) a l w' : x = Ok (a, l, w') -> in_order (let* r := x in Ok (r, k)) = Ok (a, k, l, w').
Proof. intros ->. reflexivity. Qed.

(** What the question comes down to. *)
Lemma plain_answer m p args kws st w y : paddle_name t m = Ok p -> printed_again (m_class m) = None ->
  special_nodes t m None (asked_name m None p) args kws w = Some y ->
  forall a l w', (exists kept, shipped_call t m args kws st w = Ok (a, kept, l, w')) <-> y = Ok (a, l, w').
Proof.
  intros P A S a l w'. unfold shipped_call, nodes_of. rewrite P. cbn [bind]. rewrite A, S. split.
  - intros (kept & H). apply from_in_order in H. exact H.
  - intros H. eexists. apply to_in_order. exact H.
Qed.
Definition method_classes : list string := ["TensorRenameMatcher"; "ChangePrefixMatcher"; "TensorMaxMatcher"; "TensorMinMatcher"; "TensorStftMatcher"].
Lemma method_answer m f p args kws st w y : paddle_name t m = Ok p -> printed_again (m_class m) = None -> mem_str (m_class m) method_classes = false ->
  special_nodes t m (Some (receiver_of t f)) (asked_name m (Some (receiver_of t f)) p) args kws w = Some y ->
  forall a l w', (exists kept, shipped_method t m f args kws st w = Ok (a, kept, l, w')) <-> y = Ok (a, l, w').
Proof.
  intros P A N S a l w'. unfold method_classes in N. cbn [mem_str existsb] in N. rewrite !Bool.orb_false_iff in N.
  unfold shipped_method, nodes_of. destruct N as (N1 & N2 & N3 & N4 & N5 & _). rewrite ?N1, ?N2, ?N3, ?N4, ?N5. cbv zeta. rewrite P. cbn [bind]. rewrite A, S. split.
  - intros (kept & H). apply from_in_order in H. exact H.
  - intros H. eexists. apply to_in_order. exact H.
Qed.
Lemma own_answer (m : matcher) x w (args kws : list node) a l w' :
  (exists kept, in_order (let* r := from_answer t (m_class m) x w in Ok (r, (args, kws))) = Ok (a, kept, l, w')) <-> from_answer t (m_class m) x w = Ok (a, l, w').
Proof. split; [intros (kept & H); apply from_in_order in H; exact H|intros H; eexists; apply to_in_order; exact H]. Qed.
Lemma named_plainly m : mem_str (m_class m) ["ChangePrefixMatcher"; "ChangeAPIMatcher"; "EinopsTorchMatcher"; "TransformersGenericMatcher"; "FAApplyRotaryEmbFuncMatcher"] = false ->
  asserting (m_class m) = false \/ has_name (r_entry (m_row m)) = true -> paddle_name t m = Ok (paddle_api (r_entry (m_row m))).
Proof.
  intros N A. cbn [mem_str existsb] in N. rewrite !Bool.orb_false_iff in N. destruct N as (N1 & N2 & N3 & N4 & N5 & _).
  unfold paddle_name. rewrite N1, N2, N3, N4, N5. destruct A as [-> | ->]; [reflexivity|]. rewrite Bool.andb_false_r. reflexivity.
Qed.
Lemma make_shape_same constant inner constant' inner' args :
  (forall x, args = [x] -> constant (expr_of t x) = constant' (expr_of t x) /\ (e_starred (expr_of t x) = true -> inner (expr_of t x) = inner' (expr_of t x))) ->
  Special.make_shape constant inner (exprs_of t args) = Special.make_shape constant' inner' (exprs_of t args).
Proof.
  intros H. destruct args as [|x [|y args]]; [reflexivity| |reflexivity]. cbn [exprs_of map Special.make_shape]. destruct (H x eq_refl) as [H1 H2]. rewrite H1.
  destruct (constant' (expr_of t x)); [reflexivity|]. destruct (e_starred (expr_of t x)) eqn:S; [|reflexivity]. rewrite (H2 eq_refl). reflexivity.
Qed.
Lemma rule_helper_free_false (x : Special.answer) : (forall h s, x = Special.Produce h s -> h = false) -> (forall h, x = Special.Leave h -> h = false) ->
  (forall s, x <> Special.Produce true s) /\ x <> Special.Leave true.
Proof. intros A B. split; [intros s E; specialize (A true s E)|intros E; specialize (B true E)]; discriminate. Qed.
Ltac helper_free := right; apply rule_helper_free_false; intros;
  match goal with H : ?e = _ |- _ => revert H end;
  repeat match goal with |- context [match ?x with _ => _ end] => destruct x end; cbn [fst snd]; intros; congruence.
Lemma own_question q r recv args kws w x exts : about_call t q r recv args kws -> own_rule t r args kws w recv x exts ->
  exists c, r_matcher r = Some c /\ (mem_str c with_helper = true \/ (forall s, x <> Special.Produce true s) /\ x <> Special.Leave true) /\
  exists w0, helpers w0 = helpers w /\ cpp_extensions w0 = exts /\
  forall a l w', answered t q w a l w' <-> from_answer t c x w0 = Ok (a, l, w').
Proof.
  intros (api & a0 & c & origin & st & L & Q) R. destruct (found_in _ _ _ _ L) as [M I]. exists c. split; [exact M|].
  destruct R as [v N|v N|v N|v N|v N PV|N|N|N|constant inner N K1 K2|N|N|nm N P|kind K N].
  - class_of L N. destruct Q as (f & -> & ->). split; [left; reflexivity|]. exists w. split; [reflexivity|]. split; [reflexivity|].
    intros a l w'. cbn [answered]. unfold shipped_method. cbn [m_class m_row String.eqb Ascii.eqb Bool.eqb]. cbv zeta.
    rewrite named_plainly by (first [reflexivity|left; vm_compute; reflexivity]). cbn [bind]. apply (own_answer (MkMatcher a0 "TensorMaxMatcher" r origin)).
  - class_of L N. destruct Q as (f & -> & ->). split; [left; reflexivity|]. exists w. split; [reflexivity|]. split; [reflexivity|].
    intros a l w'. cbn [answered]. unfold shipped_method. cbn [m_class m_row String.eqb Ascii.eqb Bool.eqb]. cbv zeta.
    rewrite named_plainly by (first [reflexivity|left; vm_compute; reflexivity]). cbn [bind]. apply (own_answer (MkMatcher a0 "TensorMinMatcher" r origin)).
  - class_of L N. destruct Q as (f & -> & ->). split. { unfold Special.rename_nodes. helper_free. } exists w. split; [reflexivity|]. split; [reflexivity|].
    intros a l w'. cbn [answered]. unfold shipped_method. cbn [m_class m_row String.eqb Ascii.eqb Bool.eqb]. cbv zeta. apply (own_answer (MkMatcher a0 "TensorRenameMatcher" r origin)).
  - class_of L N. destruct Q as (f & -> & ->). split; [left; reflexivity|]. exists w. split; [reflexivity|]. split; [reflexivity|].
    cbn [answered]. eapply method_answer; [apply named_plainly; [reflexivity|left; vm_compute; reflexivity]|reflexivity|reflexivity|reflexivity].
  - class_of L N. destruct Q as (f & -> & ->). split. { unfold Special.stft_nodes. helper_free. } exists w. split; [reflexivity|]. split; [reflexivity|].
    intros a l w'. cbn [answered]. unfold shipped_method. cbn [m_class m_row String.eqb Ascii.eqb Bool.eqb]. cbv zeta.
    rewrite named_plainly by (first [reflexivity|left; vm_compute; reflexivity]). cbn [bind m_row]. rewrite P.
    assert (T : text_of (asked_name (MkMatcher a0 "TensorStftMatcher" r origin) (Some (receiver_of t f)) (Some "paddle.Tensor.stft")) = receiver_of t f ++ ".stft").
    { unfold asked_name. cbn [mem_str existsb m_class String.eqb Ascii.eqb Bool.eqb orb stored_name].
      pose proof (with_receiver_exact "paddle.Tensor.stft" (receiver_of t f) eq_refl PV) as W.
      assert (W' : with_receiver (receiver_of t f) "paddle.Tensor.stft" = receiver_of t f ++ ".stft").
      { eapply called_on_functional; [exact W|]. apply (on_receiver _ "paddle.Tensor" ".stft"); [left; reflexivity|reflexivity]. }
      rewrite W'. destruct (String.eqb_spec (receiver_of t f ++ ".stft") "") as [E|_]; [|reflexivity]. destruct (receiver_of t f); discriminate. }
    rewrite T. apply (own_answer (MkMatcher a0 "TensorStftMatcher" r origin)).
  - class_of L N. split. { unfold Special.chain_nodes. helper_free. } exists w. split; [reflexivity|]. split; [reflexivity|].
    cbn [answered]. eapply plain_answer; [apply named_plainly; [reflexivity|left; vm_compute; reflexivity]|reflexivity|reflexivity].
  - class_of L N. split. { unfold Special.hub_load_nodes. helper_free. } exists w. split; [reflexivity|]. split; [reflexivity|].
    cbn [answered]. eapply plain_answer; [apply named_plainly; [reflexivity|left; vm_compute; reflexivity]|reflexivity|]. cbn [m_row]. rewrite P. reflexivity.
  - class_of L N. split; [left; reflexivity|]. exists w. split; [reflexivity|]. split; [reflexivity|].
    cbn [answered]. eapply plain_answer; [apply named_plainly; [reflexivity|left; vm_compute; reflexivity]|reflexivity|]. cbn [m_row]. rewrite P. reflexivity.
  - class_of L N. split. { unfold Special.make_tensor_nodes. helper_free. } exists w. split; [reflexivity|]. split; [reflexivity|].
    cbn [answered]. eapply plain_answer; [apply named_plainly; [reflexivity|left; vm_compute; reflexivity]|reflexivity|].
    unfold special_nodes. cbn [m_class m_row String.eqb Ascii.eqb Bool.eqb]. f_equal. f_equal. unfold Special.make_tensor_nodes.
    erewrite (make_shape_same _ _ constant inner args); [reflexivity|]. intros y ->. destruct (K1 y eq_refl) as [K3 K4]. split; [symmetry; exact K3|].
    intros S. cbn [expr_of e_starred] in S. apply String.eqb_eq in S. specialize (K2 y eq_refl S). unfold keyword_value.
    destruct (child_at y (At "value" 0)) as [v|]; [|congruence]. symmetry. apply K4. reflexivity.
  - class_of L N. split. { unfold Special.setup_nodes, Special.by_parsing, Special.setup_code. helper_free. }
    exists (MkWorld (name_counters w) (helpers w) (snd (Special.setup_nodes (r_entry r) (exprs_of t args) (keywords_of t kws) (cpp_extensions w)))). split; [reflexivity|]. split; [reflexivity|].
    cbn [answered]. eapply plain_answer; [apply named_plainly; [reflexivity|left; vm_compute; reflexivity]|reflexivity|].
    unfold special_nodes. cbn [m_class m_row String.eqb Ascii.eqb Bool.eqb]. destruct (Special.setup_nodes _ _ _ _). reflexivity.
  - class_of L N. split; [left; reflexivity|]. exists w. split; [reflexivity|]. split; [reflexivity|].
    cbn [answered]. eapply plain_answer; [reflexivity|reflexivity|reflexivity].
  - rewrite N in M. injection M as <-. split. { unfold Special.weights_nodes. helper_free. } subst q. cbn [answered].
    set (m := MkMatcher a0 "WeightsMatcher" r origin).
    assert (X : exists w0, helpers w0 = helpers w /\ cpp_extensions w0 = cpp_extensions w /\
      from_parsed (Special.parse_loosely (r_entry r) (exprs_of t args) (keywords_of t kws)) w
            (fun d => from_generator t m false g_GenericMatcher None (Special.weights_table d) w) =
      from_answer t "WeightsMatcher" (Special.weights_nodes (r_entry r) nm (snd (unique_name (name_counters w) "out")) (exprs_of t args) (keywords_of t kws)) w0).
    { unfold Special.weights_nodes. unfold Special.parse_loosely. destruct (_ <? _)%nat; [exists w; repeat split|].
      destruct (Special.loose_kwargs _ _) as [d|] eqn:D; [|exists w; repeat split]. apply loose_named in D. apply weights_named in D. cbn [from_parsed].
      destruct (generic_answer m false (Special.weights_table d) w nm P D) as (i & G). exists (MkWorld i (helpers w) (cpp_extensions w)).
      split; [reflexivity|]. split; [reflexivity|]. rewrite (G w eq_refl). reflexivity. }
    destruct X as (w0 & X1 & X2 & X). exists w0. split; [exact X1|]. split; [exact X2|].
    eapply plain_answer; [apply named_plainly; [reflexivity|left; vm_compute; reflexivity]|reflexivity|]. unfold special_nodes. cbn [m_class m_row String.eqb Ascii.eqb Bool.eqb m]. f_equal. exact X.
  - assert (PA : paddle_api (r_entry r) = Some ("paddle.utils.cpp_extension." ++ kind) /\ c = "CUDAAndCppExtensionMatcher").
    { destruct K as [<-|[<-|[]]]; class_of L N; split; assumption || reflexivity. }
    destruct PA as [P ->]. split. { unfold Special.extension_nodes. helper_free. } subst q. cbn [answered].
    set (m := MkMatcher a0 "CUDAAndCppExtensionMatcher" r origin). set (nm := "paddle.utils.cpp_extension." ++ kind) in *.
    assert (X : exists w0, helpers w0 = helpers w /\ cpp_extensions w0 = cpp_extensions w /\
      (if (List.length (exprs_of t args) + List.length (keywords_of t kws) <? min_input_args (r_entry r))%nat then Ok (AMisidentify, [], w)
       else from_parsed (Special.parse_loosely (r_entry r) (exprs_of t args) (keywords_of t kws)) w
            (fun d => from_generator t m true g_GenericMatcher None d w)) =
      from_answer t "CUDAAndCppExtensionMatcher" (Special.extension_nodes (r_entry r) nm (snd (unique_name (name_counters w) "out")) (exprs_of t args) (keywords_of t kws)) w0).
    { unfold Special.extension_nodes. destruct (_ <? _)%nat; [exists w; repeat split|]. unfold Special.parse_loosely. destruct (_ <? _)%nat; [exists w; repeat split|].
      destruct (Special.loose_kwargs _ _) as [d|] eqn:D; [|exists w; repeat split]. apply loose_named in D. cbn [from_parsed].
      destruct (generic_answer m true d w nm P D) as (i & G). exists (MkWorld i (helpers w) (cpp_extensions w)).
      split; [reflexivity|]. split; [reflexivity|]. rewrite (G w eq_refl). reflexivity. }
    destruct X as (w0 & X1 & X2 & X). exists w0. split; [exact X1|]. split; [exact X2|].
    eapply plain_answer; [apply named_plainly; [reflexivity|right; unfold has_name; cbn [m_row m]; rewrite P; reflexivity]|reflexivity|]. unfold special_nodes. cbn [m_class m_row String.eqb Ascii.eqb Bool.eqb m]. f_equal. exact X.
Qed.
Lemma own_followed q r recv args kws w x exts a l w' : about_call t q r recv args kws -> own_rule t r args kws w recv x exts ->
  answered t q w a l w' -> says t r w x a l w' /\ cpp_extensions w' = exts.
Proof.
  intros A R H. destruct (own_question _ _ _ _ _ _ _ _ A R) as (c & M & HH & w0 & W1 & W2 & Q). apply Q in H. rewrite <- W2. eapply answer_says; eassumption.
Qed.
Lemma own_answers q r recv args kws w x exts : about_call t q r recv args kws -> own_rule t r args kws w recv x exts ->
  readable x -> exists a l w', answered t q w a l w'.
Proof.
  intros A R H. destruct (own_question _ _ _ _ _ _ _ _ A R) as (c & M & HH & w0 & W1 & W2 & Q).
  destruct (answer_exists c x w0 H) as (a & l & w' & E). exists a, l, w'. apply Q, E.
Qed.
Lemma own_rule_functional r args kws w recv x exts y exts' : (exists api a c, get_api_matcher api = LMatcher a c r) ->
  own_rule t r args kws w recv x exts -> own_rule t r args kws w recv y exts' -> x = y /\ exts = exts'.
Proof.
  intros (api & a0 & c & L) R S. destruct (found_in _ _ _ _ L) as [M _].
  destruct R as [v N|v N|v N|v N|v N PV|N|N|N|constant inner N K1 K2|N|N|nm N P|kind K N];
    inversion S as [v' N'|v' N'|v' N'|v' N'|v' N' PV'|N'|N'|N'|constant' inner' N' K1' K2'|N'|N'|nm' N' P'|kind' K' N']; subst; try (rewrite N in N'; discriminate N'); try (split; reflexivity);
    try (destruct K as [<-|[<-|[]]]; rewrite N in N'; discriminate N'); try (destruct K' as [<-|[<-|[]]]; rewrite N in N'; discriminate N');
    try (class_of L N; congruence); try (class_of L N'; congruence).
  - split; [|reflexivity]. unfold Special.make_tensor_nodes. erewrite make_shape_same; [reflexivity|]. intros z ->.
    destruct (K1 z eq_refl) as [A B], (K1' z eq_refl) as [A' B']. split; [congruence|]. intros ST. cbn [expr_of e_starred] in ST. apply String.eqb_eq in ST.
    specialize (K2 z eq_refl ST). destruct (child_at z (At "value" 0)) as [u|]; [|congruence]. rewrite (B u eq_refl), (B' u eq_refl). reflexivity.
  - split; congruence.
  - exfalso. destruct K' as [<-|[<-|[]]]; class_of L N'; congruence.
  - exfalso. destruct K as [<-|[<-|[]]]; class_of L N; congruence.
  - assert (kind = kind') as ->; [|split; reflexivity]. rewrite N in N'. apply app_same in N'. exact N'.
Qed.
End Own.
