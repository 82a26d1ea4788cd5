(** The state of the matchers over a whole conversion: names are never made twice and
    helper code is kept. *)
From Coq Require Import Lia.
From Verif Require Import PyStr PyDict PyDictFacts PyStrFacts UtilsFile Args ArgsSpec TablesData Lookup Ast Walk WalkFacts ImportPass BasicPass
  Generate GenerateData GenerateRows GenerateSpec GenerateSound GenerateExact Grammar GrammarRows Names Shipped ShippedSpec ShippedFacts ShippedRaise BasicFacts.
From Verif Require Special HelpersFacts ImportFacts3.
From Verif Require Import RegistryFacts ShippedHelpers.
Opaque api_mapping attribute_mapping alias_mapping wildcard_mapping matcher_classes torch_package_mapping generators.

Ltac dest_bind H :=
  match type of H with
  | bind ?r _ = Ok _ =>
      let E := fresh "E" in
      destruct r eqn:E; [|discriminate H]; cbn [bind] in H
  end.

(** ** The pass changes the state of the matchers only by asking them *)
Section Pass.
Variables (t : tools) (imps : ist).
Let e := shipped_env t imps.
Definition reaches (s s' : bst world) : Prop := exists l, asked t (shared s) l (shared s').
Lemma asked_trans w l w1 l' w2 : asked t w l w1 -> asked t w1 l' w2 -> asked t w (l ++ l')%list w2.
Proof. induction 1; [trivial|]. intros X. cbn. econstructor; eauto. Qed.
Lemma reaches_same s s' : shared s' = shared s -> reaches s s'.
Proof. unfold reaches. intros ->. exists []. constructor. Qed.
Lemma reaches_refl s : reaches s s. Proof. apply reaches_same. reflexivity. Qed.
Lemma reaches_trans a b c : reaches a b -> reaches b c -> reaches a c.
Proof. intros [l A] [m B]. exists (l ++ m)%list. eapply asked_trans; eassumption. Qed.
Lemma reaches_one q s a l s' : answered t q (shared s) a l (shared s') -> reaches s s'.
Proof. intros A. eexists [_]. econstructor; [exact A|constructor]. Qed.
Lemma record_shared p l (s : bst world) : shared (record p l s) = shared s. Proof. destruct l; reflexivity. Qed.
Lemma insert_shared l st (s : bst world) b s' : insert_multi_node e l st s = Ok (b, s') -> shared s' = shared s.
Proof.
  unfold insert_multi_node. intros H. destruct (filter _ l) as [|x r].
  - injection H as <- <-. apply record_shared.
  - dest_bind H. destruct (mem_str _ _).
    + injection H as <- <-. apply record_shared.
    + dest_bind H. injection H as <- <-. rewrite !record_shared. reflexivity.
Qed.
Lemma note_shared a p (s : bst world) : shared (note_paddle a p s) = shared s.
Proof. unfold note_paddle. destruct (dget _ _ _) as [[? ?]|]; reflexivity. Qed.
Lemma ask_reaches m st s p s' : ask_api e m st s = Ok (p, s') -> reaches s s'.
Proof.
  unfold ask_api. intros H. dest_bind H. destruct a as [[q l] w]. dest_bind H. destruct a as [b s1]. injection H as <- <-.
  apply insert_shared in E0. apply (reaches_one (AskName m st) s ANothing l). split; [reflexivity|]. rewrite E0. exists q. exact E.
Qed.
Lemma ask_note_reaches a m st s s' : ask_and_note e a m st s = Ok s' -> reaches s s'.
Proof.
  unfold ask_and_note. intros H. dest_bind H. destruct a0 as [p s1]. apply ask_reaches in E. destruct (truthy p).
  - dest_bind H. destruct a0 as [p2 s2]. injection H as <-. apply ask_reaches in E0.
    eapply reaches_trans; [exact E|]. eapply reaches_trans; [exact E0|]. apply reaches_same, note_shared.
  - injection H as <-. eapply reaches_trans; [exact E|]. apply reaches_same, note_shared.
Qed.
Lemma annotate_shared k st (s : bst world) s' : annotate k st s = Ok s' -> shared s' = shared s.
Proof. unfold annotate. intros H. dest_bind H. injection H as <-. reflexivity. Qed.
Lemma rest_reaches n api origin st s r s' : attribute_rest e n api origin st s = Ok (r, s') -> reaches s s'.
Proof.
  unfold attribute_rest. intros H. destruct (3 <=? _)%nat; [|injection H as <- <-; apply reaches_same; reflexivity].
  dest_bind H. destruct a as [m|]; [|injection H as <- <-; apply reaches_same; reflexivity].
  dest_bind H. destruct a as [p s1]. apply ask_reaches in E0. eapply reaches_trans; [exact E0|].
  destruct p as [p|]; [|discriminate]. destruct (String.eqb p "unchange").
  - injection H as <- <-. apply reaches_same. reflexivity.
  - dest_bind H. injection H as <- <-. apply reaches_same. reflexivity.
Qed.
Lemma torch_attribute_reaches n api origin st s r s' : visit_torch_attribute e n api origin st s = Ok (r, s') -> reaches s s'.
Proof.
  unfold visit_torch_attribute. intros H. apply (reaches_trans s (recognise api s)); [apply reaches_same; reflexivity|].
  set (s0 := recognise api s) in *. clearbody s0. dest_bind H. destruct a as [m|]; [|eapply rest_reaches; exact H].
  dest_bind H. destruct a as [p s1]. apply ask_reaches in E0. eapply reaches_trans; [exact E0|].
  destruct p as [p|]; [|eapply rest_reaches; exact H].
  destruct (String.eqb p "delete").
  { dest_bind H. dest_bind H. destruct a; [injection H as <- <-; apply reaches_same; reflexivity|].
    destruct (a0 && _); [injection H as <- <-; apply reaches_same; reflexivity|]. eapply rest_reaches; exact H. }
  destruct (String.eqb p "misidentify"); [injection H as <- <-; apply reaches_same; reflexivity|].
  destruct (String.eqb p "unchange"); [injection H as <- <-; apply reaches_same; reflexivity|].
  destruct (String.eqb p ""); [eapply rest_reaches; exact H|].
  dest_bind H. injection H as <- <-. apply reaches_same. apply note_shared.
Qed.
Ltac done H := injection H as <- <-; apply reaches_same; reflexivity.
Lemma class_attribute_reaches n api origin st s r s' : trans_class_attribute e n api origin st s = Ok (r, s') -> reaches s s'.
Proof.
  unfold trans_class_attribute. cbv zeta. intros H.
  assert (G : forall s, (let* s := annotate api st s in Ok (Reply (VNode n), s)) = Ok (r, s') -> reaches s s').
  { intros s0 H0. dest_bind H0. injection H0 as _ <-. eapply reaches_same, annotate_shared, E. }
  dest_bind H. destruct a as [m|]; [|apply G, H].
  dest_bind H. apply ask_note_reaches in E0. eapply reaches_trans; [exact E0|]. clear E0.
  dest_bind H. destruct a0 as [[a0 l] w]. dest_bind H. destruct a1 as [b s1]. apply insert_shared in E1.
  apply (reaches_trans a s1).
  { apply (reaches_one (AskAttribute m n st) a a0 l). cbn [answered]. rewrite E1. exact E0. }
  destruct a0 as [| | |[|x l']|].
  - dest_bind H. destruct a0; [done H|apply G, H].
  - done H.
  - done H.
  - apply G, H.
  - destruct (mem_str _ _); [|apply G, H]. dest_bind H. destruct a0 as [ok s2]. apply insert_shared in E2.
    eapply reaches_trans; [apply reaches_same; exact E2|]. destruct ok; [done H|apply G, H].
  - apply G, H.
Qed.
Lemma finish_attribute_reaches n st s r s' : finish_attribute e n st s = Ok (r, s') -> reaches s s'.
Proof.
  unfold finish_attribute. intros H.
  dest_bind H. destruct (_ && _); [done H|]. cbv zeta in H. dest_bind H.
  destruct (start_with_torch e a0); [eapply torch_attribute_reaches; exact H|].
  destruct (contains _ _); [done H|]. destruct (find _ _) as [api|]; [|done H].
  apply (reaches_trans s (recognise api s)); [apply reaches_same; reflexivity|]. eapply class_attribute_reaches. exact H.
Qed.
Lemma torch_call_reaches f args kws api origin st s r s' : visit_torch_call e f args kws api origin st s = Ok (r, s') -> reaches s s'.
Proof.
  unfold visit_torch_call. intros H. apply (reaches_trans s (recognise api s)); [apply reaches_same; reflexivity|].
  set (s0 := recognise api s) in *. clearbody s0.
  dest_bind H. destruct a as [m|]; [|done H].
  dest_bind H. apply ask_note_reaches in E0. eapply reaches_trans; [exact E0|]. clear E0.
  dest_bind H. destruct a0 as [[[a0 kept] l] w]. dest_bind H. destruct a1 as [b s1]. apply insert_shared in E1.
  apply (reaches_trans a s1).
  { apply (reaches_one (AskCall m args kws st) a a0 l). exists kept. rewrite E1. exact E0. }
  cbv zeta in H. destruct a0 as [| | |[|x l']|].
  - dest_bind H. destruct a0; done H.
  - done H.
  - done H.
  - done H.
  - destruct (mem_str _ _); [|done H]. dest_bind H. destruct a0 as [ok s2]. apply insert_shared in E2.
    eapply reaches_trans; [apply reaches_same; exact E2|]. destruct ok; done H.
  - done H.
Qed.
Lemma class_method_reaches f args kws api origin st s r s' : trans_class_method e f args kws api origin st s = Ok (r, s') -> reaches s s'.
Proof.
  unfold trans_class_method. cbv zeta. intros H.
  assert (G : forall a k s, (let* s := annotate ("*" ++ method_suffix api) st s in Ok (Reply (VNode (Call f a k)), s)) = Ok (r, s') -> reaches s s').
  { intros a k s0 H0. dest_bind H0. injection H0 as _ <-. eapply reaches_same, annotate_shared, E. }
  dest_bind H. destruct a as [m|]; [|apply (G _ _ _ H)].
  dest_bind H. apply ask_note_reaches in E0. eapply reaches_trans; [exact E0|]. clear E0.
  dest_bind H. destruct a0 as [[[a0 kept] l] w]. dest_bind H. destruct a1 as [b s1]. apply insert_shared in E1.
  apply (reaches_trans a s1).
  { eapply (reaches_one (AskMethod m f _ kws st) a a0 l). exists kept. rewrite E1. exact E0. }
  destruct a0 as [| | |[|x l']|].
  - dest_bind H. destruct a0; [done H|apply (G _ _ _ H)].
  - done H.
  - done H.
  - apply (G _ _ _ H).
  - destruct (mem_str _ _); [|apply (G _ _ _ H)]. dest_bind H. destruct a0 as [ok s2]. apply insert_shared in E2.
    eapply reaches_trans; [apply reaches_same; exact E2|]. destruct ok; [done H|apply (G _ _ _ H)].
  - apply (G _ _ _ H).
Qed.
Lemma finish_call_reaches f args kws st s r s' : finish_call e f args kws st s = Ok (r, s') -> reaches s s'.
Proof.
  unfold finish_call. intros H. cbv zeta in H. dest_bind H.
  destruct (_ || _); [eapply torch_call_reaches; exact H|].
  destruct (contains _ _); [done H|]. destruct (find _ _) as [api|]; [|done H].
  apply (reaches_trans s (recognise api s)); [apply reaches_same; reflexivity|]. eapply class_method_reaches. exact H.
Qed.
Lemma post_reaches n st s r s' : basic_post e n st s = Ok (r, s') -> reaches s s'.
Proof.
  unfold basic_post. intros H. destruct n as [i|v a|f a k|l|m l i|k fs].
  - apply visit_name_same in H. subst. apply reaches_refl.
  - eapply finish_attribute_reaches, H.
  - eapply finish_call_reaches, H.
  - done H.
  - done H.
  - destruct (mem_str k ["Attribute"; "Call"]); [discriminate|]. destruct (String.eqb k "Expr"); [done H|].
    destruct (mem_str k scope_kinds); done H.
Qed.
Theorem transform_reaches limit n s n' s' : basic_transform e limit n s = Ok (n', s') -> reaches s s'.
Proof.
  unfold basic_transform. intros H. dest_bind H. destruct a as [r [st s1]].
  assert (X : reaches s s1).
  { apply (walk_rel reaches reaches_refl reaches_trans) in E; [exact E| |].
    - intros m stk u go u' P. unfold basic_pre in P. destruct (mem_str (kind_of m) scope_kinds); injection P as _ <-; apply reaches_same; reflexivity.
    - intros m stk u r' u' P. eapply post_reaches, P. }
  destruct r as [[x| |]|]; try discriminate. injection H as _ <-. exact X.
Qed.
End Pass.

(** ** No counter goes back, no helper code is lost *)
Section Onward.
Variable t : tools.
(** Helper code of one of the classes. *)
Definition of_a_class (x : string) : Prop := exists c, In c with_helper /\ x = helper_code t c.
Definition onward (w w' : world) : Prop :=
  grown (name_counters w) (name_counters w') /\ exists l, helpers w' = (helpers w ++ l)%list /\ Forall of_a_class l.
Lemma onward_refl w : onward w w. Proof. split; [apply grown_refl|]. exists []. split; [symmetry; apply app_nil_r|constructor]. Qed.
Lemma onward_trans a b c : onward a b -> onward b c -> onward a c.
Proof.
  intros [A [l [B F]]] [C [m [D G]]]. split; [eapply grown_trans; eassumption|]. exists (l ++ m)%list.
  split; [rewrite D, B, app_assoc; reflexivity|apply Forall_app; split; assumption].
Qed.
Lemma onward_same w w' : name_counters w' = name_counters w -> helpers w' = helpers w -> onward w w'.
Proof. intros A B. split; [rewrite A; apply grown_refl|]. exists []. rewrite app_nil_r. split; [exact B|constructor]. Qed.
Lemma enable_onward b cls w l w' : enable_if t b cls w = (l, w') -> onward w w' /\ name_counters w' = name_counters w.
Proof.
  unfold enable_if, enable. destruct b; [|intros [= _ <-]; split; [apply onward_refl|reflexivity]].
  destruct (mem_str cls with_helper) eqn:K; cbn [andb]; [|intros [= _ <-]; split; [apply onward_refl|reflexivity]].
  destruct (negb _); intros [= _ <-]; (split; [|reflexivity]); [|apply onward_refl]. split; [apply grown_refl|]. exists [helper_code t cls].
  split; [reflexivity|]. constructor; [|constructor]. exists cls. split; [apply mem_str_In, K|reflexivity].
Qed.
Lemma as_nodes_same code l w a l' w' : as_nodes t code l w = Ok (a, l', w') -> w' = w.
Proof. unfold as_nodes. intros H. dest_bind H. injection H as _ _ <-. reflexivity. Qed.
Lemma from_code_same c w a l w' : from_code t c w = Ok (a, l, w') -> w' = w.
Proof. destruct c; [|discriminate]. apply as_nodes_same. Qed.
Lemma answer_onward cls x w a l w' : from_answer t cls x w = Ok (a, l, w') -> onward w w'.
Proof.
  destruct x; cbn [from_answer].
  - destruct (enable_if t _ cls w) as [l0 w0] eqn:E. intros H. apply as_nodes_same in H. subst. apply enable_onward in E. apply E.
  - intros [= _ _ <-]. apply onward_refl.
  - intros [= _ _ <-]. apply onward_refl.
  - destruct (enable_if t _ cls w) as [l0 w0] eqn:E. intros [= _ _ <-]. apply enable_onward in E. apply E.
  - discriminate.
Qed.
Lemma run_grows c b d i g i' h : run_generator c b d i = Ret (g, i', h) -> grown i i'.
Proof.
  unfold run_generator. intros H. destruct (exec c b _) as [[x s]|y] eqn:E; [|discriminate]. cbn [andthen] in H.
  apply (counters_grow c) in E. cbn [counters] in E.
  destruct x as [[r| |[|]]|]; try discriminate; injection H as _ <- _; exact E.
Qed.
Lemma generator_onward m strict b recv d w a l w' : from_generator t m strict b recv d w = Ok (a, l, w') -> onward w w'.
Proof.
  unfold from_generator. cbv zeta. destruct (run_generator _ b d _) as [[[g i'] h]|x] eqn:R; [|discriminate]. apply run_grows in R.
  destruct (enable_if t h _ _) as [l0 w0] eqn:E. apply enable_onward in E as [E _].
  assert (X : onward w w0).
  { eapply onward_trans; [|exact E]. split; [exact R|]. exists []. split; [symmetry; apply app_nil_r|constructor]. }
  intros H. destruct g; [apply as_nodes_same in H; subst; exact X| | |]; injection H as _ _ <-; exact X.
Qed.
Lemma parsed_onward p w k a l w' : (forall d, k d = Ok (a, l, w') -> onward w w') -> from_parsed p w k = Ok (a, l, w') -> onward w w'.
Proof. intros K. destruct p; cbn [from_parsed]; [apply K| | |discriminate]; intros [= _ _ <-]; apply onward_refl. Qed.
Lemma special_onward m recv name args kws w r a l w' : special_nodes t m recv name args kws w = Some r -> r = Ok (a, l, w') -> onward w w'.
Proof.
  unfold special_nodes. cbv zeta. intros S R. subst r.
  repeat match type of S with
  | (if ?b then _ else _) = _ => destruct b; [try (injection S as S; apply answer_onward in S; exact S)|]
  end; [| | |discriminate].
  - destruct (Special.setup_nodes _ _ _ _) as [x exts]. injection S as S. apply answer_onward in S. exact S.
  - injection S as S. eapply parsed_onward; [|exact S]. intros d X. eapply generator_onward, X.
  - injection S as S. destruct (_ <? _)%nat; [injection S as _ _ <-; apply onward_refl|]. eapply parsed_onward; [|exact S]. intros d X. eapply generator_onward, X.
Qed.
Lemma base_onward m recv args kws w a l w' : base_nodes t m recv args kws w = Ok (a, l, w') -> onward w w'.
Proof.
  unfold base_nodes. apply parsed_onward. intros d. destruct (dget _ _ _) as [[st b]|]; [|discriminate]. apply generator_onward.
Qed.
Lemma nodes_onward m recv name args kws w a l w' kept : nodes_of t m recv name args kws w = Ok (a, l, w', kept) -> onward w w'.
Proof.
  unfold nodes_of. cbv zeta. intros H. destruct (printed_again _) as [f|].
  - dest_bind H. destruct a0 as [[a0 l0] w0]. injection H as _ _ -> _. apply from_code_same in E. subst. apply onward_refl.
  - destruct (special_nodes _ _ _ _ _ _ _) as [r|] eqn:S.
    + destruct r as [[[a0 l0] w0]|]; [|discriminate]. cbn [bind] in H. injection H as _ _ -> _. eapply special_onward; [exact S|reflexivity].
    + dest_bind H. destruct a0 as [[a0 l0] w0]. injection H as _ _ -> _. eapply base_onward, E.
Qed.
Lemma own_onward cls x w (args kws : list node) a kept l w' :
  in_order (let* r := from_answer t cls x w in Ok (r, (args, kws))) = Ok (a, kept, l, w') -> onward w w'.
Proof.
  intros H. apply in_order_ok in H. dest_bind H. destruct a0 as [[a0 l0] w0]. injection H as _ _ -> _. eapply answer_onward, E.
Qed.
Theorem answered_onward q w a l w' : answered t q w a l w' -> onward w w'.
Proof.
  destruct q as [m st|m n st|m args kws st|m f args kws st]; cbn [answered].
  - intros (_ & p & H). unfold shipped_api in H. dest_bind H. destruct (enable_if _ _ _ _) as [l0 w0] eqn:E0. injection H as _ _ <-.
    apply enable_onward in E0. apply E0.
  - intros H. unfold shipped_attribute in H. destruct (mem_str _ _); [injection H as _ _ <-; apply onward_refl|].
    dest_bind H. destruct (enable_if _ _ _ _) as [l0 w0] eqn:E0. apply enable_onward in E0 as [E0 _]. cbv zeta in H.
    destruct (String.eqb _ _).
    + destruct (Special.attribute_to_call _); try (injection H as _ _ <-; exact E0). apply as_nodes_same in H. subst. exact E0.
    + apply as_nodes_same in H. subst. exact E0.
  - intros (kept & H). unfold shipped_call in H. dest_bind H. apply in_order_ok in H. destruct kept. eapply nodes_onward, H.
  - intros (kept & H). unfold shipped_method in H. cbv zeta in H.
    destruct (String.eqb _ "TensorRenameMatcher"); [eapply own_onward, H|].
    destruct (String.eqb _ "ChangePrefixMatcher").
    + dest_bind H. apply in_order_ok in H. dest_bind H. destruct a1 as [[a1 l1] w1]. injection H as _ _ -> _. apply from_code_same in E0. subst. apply onward_refl.
    + dest_bind H. destruct (String.eqb _ "TensorMaxMatcher"); [eapply own_onward, H|]. destruct (String.eqb _ "TensorMinMatcher"); [eapply own_onward, H|].
      destruct (String.eqb _ "TensorStftMatcher"); [eapply own_onward, H|]. apply in_order_ok in H. destruct kept. eapply nodes_onward, H.
Qed.
Theorem asked_onward w l w' : asked t w l w' -> onward w w'.
Proof. induction 1 as [w|q w a l w1 qs w' A _ IH]; [apply onward_refl|]. eapply onward_trans; [eapply answered_onward, A|exact IH]. Qed.
Lemma asked_app l1 : forall w l2 w', asked t w (l1 ++ l2)%list w' -> exists w1, asked t w l1 w1 /\ asked t w1 l2 w'.
Proof.
  induction l1 as [|x l1 IH]; intros w l2 w' H; cbn [app] in H; [exists w; split; [constructor|exact H]|].
  inversion H as [|? ? ? ? ? ? ? A0 H0]; subst. destruct (IH _ _ _ H0) as (w2 & A & B). exists w2. split; [econstructor; eassumption|exact B].
Qed.
Lemma asked_cons q v a l qs w w' : asked t w ((q, v, a, l) :: qs) w' -> v = w /\ exists w1, answered t q w a l w1 /\ asked t w1 qs w'.
Proof. intros H. inversion H; subst. split; [reflexivity|]. eexists. split; eassumption. Qed.
End Onward.

(** ** What a generator row answers *)
Section Generated.
Variable t : tools.
Lemma generator_answer api a c r origin g recv args kws w ns l w' :
  get_api_matcher api = LMatcher a c r -> generator r = Some g ->
  base_nodes t (MkMatcher a c r origin) recv args kws w = Ok (ANodes ns, l, w') ->
  exists q u, paddle_nodes r g recv (exprs_of t args) (keywords_of t kws) (name_counters w) = Ret (Converted q u) /\
    parse t (render q) = Ok ns /\
    name_counters w' = paddle_counters r g recv (exprs_of t args) (keywords_of t kws) (name_counters w) /\
    (l, helpers w') = if u && mem_str c with_helper && negb (String.eqb (helper_code t c) "")
                      then (helper_imports t, helpers w ++ [helper_code t c])%list else ([], helpers w).
Proof.
  intros L G. destruct (gen_class api a c r g L G) as (D & I & RN). unfold base_nodes, paddle_nodes, paddle_counters. cbn [m_row m_class].
  destruct (fst (parse_args_and_kwargs _ _ _ _ _)) as [d| | |]; cbn [from_parsed]; try discriminate.
  rewrite D. destruct g as [st b]. cbn [fst snd]. unfold from_generator. cbv zeta. cbn [m_row m_class m_api].
  rewrite run_generator_exact. unfold context_of. rewrite RN. unfold run_generator.
  destruct (exec _ b _) as [[x s]|y]; cbn [andthen]; [|discriminate].
  destruct x as [[q| |[|]]|]; try discriminate; cbn [fst snd];
    try (destruct (enable_if _ _ _ _); discriminate).
  destruct (String.eqb (render q) "misidentify"); [destruct (enable_if _ _ _ _); discriminate|].
  destruct (String.eqb (render q) "unchange"); [destruct (enable_if _ _ _ _); discriminate|].
  destruct (String.eqb (render q) ""); [destruct (enable_if _ _ _ _); discriminate|].
  destruct (enable_if t (utils s) c _) as [l0 w0] eqn:E. unfold as_nodes. intros H. dest_bind H. injection H as -> -> ->.
  exists q, (utils s). split; [reflexivity|]. split; [exact E0|].
  unfold enable_if, enable in E. destruct (utils s); cbn [andb]; [|injection E as <- <-; split; reflexivity].
  destruct (_ && _); injection E as <- <-; split; reflexivity.
Qed.
Lemma call_answer q r recv args kws g w ns l w' :
  about_call t q r recv args kws -> generator r = Some g -> answered t q w (ANodes ns) l w' ->
  exists c p u, r_matcher r = Some c /\
    paddle_nodes r g recv (exprs_of t args) (keywords_of t kws) (name_counters w) = Ret (Converted p u) /\
    parse t (render p) = Ok ns /\
    name_counters w' = paddle_counters r g recv (exprs_of t args) (keywords_of t kws) (name_counters w) /\
    (l, helpers w') = if u && mem_str c with_helper && negb (String.eqb (helper_code t c) "")
                      then (helper_imports t, helpers w ++ [helper_code t c])%list else ([], helpers w).
Proof.
  intros (api & a & c & origin & st & L & Q) G A.
  assert (B : base_nodes t (MkMatcher a c r origin) recv args kws w = Ok (ANodes ns, l, w')).
  { pose proof (gen_name t api a c r origin g L G) as NM. pose proof (gen_special t api a c r origin g L G) as SP.
    set (m := MkMatcher a c r origin) in *. assert (E : m_class m = c) by reflexivity.
    destruct (gen_class api a c r g L G) as (D & _). pose proof (generated_not_own c g D) as N.
    destruct recv as [v|]; [destruct Q as (f & -> & ->)|subst q]; cbn [answered] in A; destruct A as (kept & A).
    - unfold shipped_method in A. cbv zeta in A. rewrite E in A.
      rewrite !(not_own c _ N) in A by (cbn; tauto). rewrite NM in A. cbn [bind] in A.
      apply in_order_ok in A. unfold nodes_of in A. rewrite E, (gen_printed api a c r g L G), SP in A.
      destruct (base_nodes t m _ args kws w) as [[[x y] z]|]; [|discriminate]. cbn [bind] in A. injection A as -> -> -> _. reflexivity.
    - unfold shipped_call in A. rewrite NM in A. cbn [bind] in A.
      apply in_order_ok in A. unfold nodes_of in A. rewrite E, (gen_printed api a c r g L G), SP in A.
      destruct (base_nodes t m _ args kws w) as [[[x y] z]|]; [|discriminate]. cbn [bind] in A. injection A as -> -> -> _. reflexivity. }
  destruct (generator_answer _ _ _ _ _ _ _ _ _ _ _ _ _ L G B) as (p & u & P & PA & C & H).
  apply get_matcher_found in L as (_ & M & _). exists c, p, u. tauto.
Qed.

(** The names that converted code may overwrite are not made by the converter. *)
Definition is_numbered (s : string) : bool :=
  match rsplit1 "_"%char s with Some (_, d) => negb (String.eqb d "") && all_chars is_digit d | None => false end.
Lemma drawn_numbered i j k n : drawn i j k n -> is_numbered n = true.
Proof.
  intros (c & _ & ->). unfold is_numbered, numbered. change (k ++ "_" ++ nat_to_str c) with (k ++ String "_" (nat_to_str c)).
  rewrite ImportFacts3.rsplit1_last by apply digits_no_us, nat_to_str_digits. rewrite nat_to_str_digits, andb_true_r.
  pose proof (HelpersFacts.str_nonempty c) as N. apply String.eqb_neq in N. rewrite N. reflexivity.
Qed.
Lemma clobbered_plain : forallb (fun x => forallb (fun n => negb (is_numbered n)) (snd x)) clobbered = true.
Proof. vm_compute. reflexivity. Qed.
Lemma listed_plain r n : listed clobbered r n -> is_numbered n = false.
Proof.
  intros (ks & A & B). pose proof (proj1 (forallb_forall _ _) clobbered_plain _ A) as H. cbv beta in H. cbn [snd] in H.
  pose proof (proj1 (forallb_forall _ _) H n B) as K. cbv beta in K. destruct (is_numbered n); [discriminate|reflexivity].
Qed.

Theorem temporaries_apart operand expression w before q1 w1 ns1 l1 between q2 w2 ns2 l2 after w' r1 g1 recv1 args1 kws1 r2 g2 recv2 args2 kws2 :
  asked t w (before ++ (q1, w1, ANodes ns1, l1) :: between ++ (q2, w2, ANodes ns2, l2) :: after)%list w' ->
  about_call t q1 r1 recv1 args1 kws1 -> generator r1 = Some g1 ->
  regular r1 recv1 (exprs_of t args1) (keywords_of t kws1) -> well_written operand expression r1 recv1 (exprs_of t args1) (keywords_of t kws1) ->
  about_call t q2 r2 recv2 args2 kws2 -> generator r2 = Some g2 ->
  regular r2 recv2 (exprs_of t args2) (keywords_of t kws2) -> well_written operand expression r2 recv2 (exprs_of t args2) (keywords_of t kws2) ->
  exists code1 names1 code2 names2,
    parse t code1 = Ok ns1 /\ program operand expression names1 code1 /\
    parse t code2 = Ok ns2 /\ program operand expression names2 code2 /\
    forall n, In n names1 -> In n names2 -> listed clobbered r1 n /\ listed clobbered r2 n.
Proof.
  intros H Q1 G1 R1 W1 Q2 G2 R2 W2.
  apply asked_app in H as (v1 & _ & H). apply asked_cons in H as (-> & v2 & A1 & T1).
  apply asked_app in T1 as (v3 & A3 & T1). apply asked_cons in T1 as (-> & v4 & A2 & T2).
  apply asked_onward in A3. destruct A3 as [GR _].
  assert (I1 : In r1 api_mapping). { destruct Q1 as (api & a & c & o & st & L & _). exact (proj1 (proj2 (gen_class _ _ _ _ _ L G1))). }
  assert (I2 : In r2 api_mapping). { destruct Q2 as (api & a & c & o & st & L & _). exact (proj1 (proj2 (gen_class _ _ _ _ _ L G2))). }
  destruct (call_answer _ _ _ _ _ _ _ _ _ _ Q1 G1 A1) as (c1 & p1 & u1 & _ & P1 & PA1 & C1 & _).
  destruct (call_answer _ _ _ _ _ _ _ _ _ _ Q2 G2 A2) as (c2 & p2 & u2 & _ & P2 & PA2 & C2 & _).
  destruct (generated_program operand expression _ _ _ _ _ _ _ _ I1 G1 R1 W1 P1) as (b1 & B1 & D1).
  destruct (generated_program operand expression _ _ _ _ _ _ _ _ I2 G2 R2 W2 P2) as (b2 & B2 & D2).
  exists (render p1), b1, (render p2), b2. split; [exact PA1|]. split; [exact B1|]. split; [exact PA2|]. split; [exact B2|].
  intros n N1 N2. rewrite C1 in GR. destruct (D1 n N1) as [[k1 X1]|X1], (D2 n N2) as [[k2 X2]|X2].
  - exfalso. exact (drawn_disjoint _ _ _ _ _ _ _ GR X1 X2).
  - exfalso. apply drawn_numbered in X1. apply listed_plain in X2. congruence.
  - exfalso. apply drawn_numbered in X2. apply listed_plain in X1. congruence.
  - split; assumption.
Qed.

Theorem helper_registered w before q v ns l after w' r g recv args kws c :
  asked t w (before ++ (q, v, ANodes ns, l) :: after)%list w' ->
  about_call t q r recv args kws -> generator r = Some g -> regular r recv (exprs_of t args) (keywords_of t kws) ->
  r_matcher r = Some c -> In c with_helper -> helper_needed r (exprs_of t args) (keywords_of t kws) -> helper_code t c <> "" ->
  l = helper_imports t /\ In (helper_code t c) (helpers w').
Proof.
  intros H Q G R M W HN NE. apply asked_app in H as (v1 & _ & H). apply asked_cons in H as (-> & v2 & A & T). apply asked_onward in T as [_ [k [K _]]].
  assert (I : In r api_mapping). { destruct Q as (api & a & c0 & o & st & L & _). exact (proj1 (proj2 (gen_class _ _ _ _ _ L G))). }
  destruct (call_answer _ _ _ _ _ _ _ _ _ _ Q G A) as (c' & p & u & M' & P & _ & _ & X). rewrite M in M'. injection M' as <-.
  rewrite (proj2 (helper_asked _ _ _ _ _ _ _ _ _ I G R M P) (conj W HN)) in X.
  rewrite (proj2 (mem_str_In _ _) W) in X. apply String.eqb_neq in NE. rewrite NE in X. cbn [andb negb] in X. injection X as -> X.
  split; [reflexivity|]. rewrite K, X. apply in_or_app. left. apply in_or_app. right. left. reflexivity.
Qed.
Theorem helper_not_registered q v ns l w' r g recv args kws c :
  answered t q v (ANodes ns) l w' ->
  about_call t q r recv args kws -> generator r = Some g -> regular r recv (exprs_of t args) (keywords_of t kws) ->
  r_matcher r = Some c -> ~ (In c with_helper /\ helper_needed r (exprs_of t args) (keywords_of t kws)) ->
  l = [] /\ helpers w' = helpers v.
Proof.
  intros A Q G R M N.
  assert (I : In r api_mapping). { destruct Q as (api & a & c0 & o & st & L & _). exact (proj1 (proj2 (gen_class _ _ _ _ _ L G))). }
  destruct (call_answer _ _ _ _ _ _ _ _ _ _ Q G A) as (c' & p & u & M' & P & _ & _ & X). rewrite M in M'. injection M' as <-.
  pose proof (helper_asked _ _ _ _ _ _ _ _ _ I G R M P) as K. destruct u; [exfalso; apply N, K; reflexivity|].
  cbn [andb] in X. injection X as -> ->. split; reflexivity.
Qed.

(** Asking for a name or an attribute. *)
Definition names_helper (m : matcher) : Prop :=
  In (m_class m) ["FAApplyRotaryEmbFuncMatcher"; "PaddleFlagMatcher"] \/
  (r_abstract (m_row m) = true /\ exists p, paddle_api (r_entry (m_row m)) = Some p /\ p <> "").
Lemma name_enables_iff m : name_enables m = true <-> names_helper m.
Proof.
  unfold name_enables, names_helper. rewrite !Bool.orb_true_iff, Bool.andb_true_iff, !String.eqb_eq. cbn [In].
  destruct (paddle_api (r_entry (m_row m))) as [p|]; [rewrite Bool.negb_true_iff, String.eqb_neq|].
  - split; [intros [[X|X]|[X Y]]; [auto|auto|right; split; [exact X|exists p; auto]]|].
    intros [[X|[X|[]]]|[X (p' & [= <-] & Y)]]; auto.
  - split; [intros [[X|X]|[_ X]]; [auto|auto|discriminate]|]. intros [[X|[X|[]]]|[X (p' & Y & _)]]; [auto|auto|discriminate].
Qed.
Theorem name_registers q m a w l w' :
  answered t q w a l w' -> (exists st, q = AskName m st) \/ (exists n st, q = AskAttribute m n st) ->
  In (m_class m) with_helper -> helper_code t (m_class m) <> "" -> names_helper m ->
  l = helper_imports t /\ helpers w' = (helpers w ++ [helper_code t (m_class m)])%list.
Proof.
  intros A Q W NE N. apply name_enables_iff in N. apply mem_str_In in W. pose proof NE as NE'. apply String.eqb_neq in NE'.
  assert (K : enable_if t (name_enables m) (m_class m) w = (helper_imports t, MkWorld (name_counters w) (helpers w ++ [helper_code t (m_class m)])%list (cpp_extensions w))).
  { rewrite N. cbn [enable_if]. unfold enable. rewrite W, NE'. reflexivity. }
  destruct Q as [[st ->]|(n & st & ->)]; cbn [answered] in A.
  - destruct A as (_ & p & A). unfold shipped_api in A. dest_bind A. rewrite K in A. injection A as _ <- <-. split; reflexivity.
  - unfold shipped_attribute in A. destruct (mem_str (m_class m) ["ChangePrefixMatcher"; "TensorStftMatcher"]) eqn:X.
    { exfalso. apply mem_str_In in X. destruct X as [X|[X|[]]]; rewrite <- X in W; vm_compute in W; discriminate. }
    dest_bind A. rewrite K in A. cbv zeta in A. destruct (String.eqb (m_class m) "Attribute2Func").
    + destruct (Special.attribute_to_call _); try (injection A as _ <- <-; split; reflexivity).
      unfold as_nodes in A. dest_bind A. injection A as _ <- <-. split; reflexivity.
    + unfold as_nodes in A. dest_bind A. injection A as _ <- <-. split; reflexivity.
Qed.
End Generated.
