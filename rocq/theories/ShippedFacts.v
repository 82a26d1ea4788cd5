(** Proofs about the shipped matchers (Shipped.v). *)
From Coq Require Import Lia.
From Verif Require Import PyStr PyStrFacts PyDict PyDictFacts UtilsFile Args TablesData Lookup LookupFacts LookupSpec Ast Walk ImportPass
  BasicPass ConvSpec Placed Generate GenerateData EffectSpec EffectFacts Shipped ShippedSpec.
From Verif Require Special.
Opaque api_mapping attribute_mapping alias_mapping wildcard_mapping matcher_classes torch_package_mapping generators.

(** ** Keywords left in the call *)
Section Left.
Variable t : tools.
Lemma left_over_exact e l : map (keyword_of t) (left_over e l) = snd (fst (check_kwargs e false (keywords_of t l))).
Proof.
  revert l. fix IH 1. intros [|n r]; [reflexivity|]. cbn [left_over keywords_of map check_kwargs keyword_of kw_arg kw_value].
  destruct (keyword_name n) as [k|] eqn:K; cbn [negb key_in]; [|reflexivity].
  destruct (mem_str k (unsupport_args e)).
  - cbn [e_none expr_of]. destruct (is_none (keyword_value n)); [|reflexivity]. destruct r as [|m r]; [reflexivity|].
    cbn [map]. rewrite IH. unfold keywords_of. destruct (check_kwargs e false (map (keyword_of t) r)) as [[v l'] c]. reflexivity.
  - cbn [key_in]. destruct (mem_str k (args_list e ++ overload_args_list e)); cbn [negb]; [|reflexivity].
    cbn [map]. rewrite IH. unfold keywords_of. destruct (check_kwargs e false (map (keyword_of t) r)) as [[v l'] c]. reflexivity.
Qed.
Lemma left_keywords_exact e args kws :
  map (keyword_of t) (left_keywords e args kws) = snd (parse_args_and_kwargs e false false (exprs_of t args) (keywords_of t kws)).
Proof.
  unfold left_keywords, parse_args_and_kwargs.
  assert (X : existsb (fun a => e_starred a && negb false) (exprs_of t args) = existsb (fun a => String.eqb (kind_of a) "Starred") args).
  { induction args as [|a args IH]; [reflexivity|]. cbn [exprs_of map existsb expr_of e_starred]. rewrite <- IH, andb_true_r. reflexivity. }
  rewrite X. destruct (existsb _ args); [reflexivity|]. rewrite left_over_exact.
  destruct (check_kwargs e false (keywords_of t kws)) as [[v l'] c]. cbn [fst snd].
  destruct v; [reflexivity|]. destruct (_ <? _)%nat; [reflexivity|]. destruct (_ <? _)%nat; [reflexivity|].
  destruct (bind_args e 0 (exprs_of t args) []); reflexivity.
Qed.
Lemma left_over_incl e l x : In x (left_over e l) -> In x l.
Proof.
  revert l. fix IH 1. intros [|n r]; [auto|]. cbn [left_over]. destruct (keyword_name n) as [k|]; [|auto].
  destruct (mem_str k _).
  - destruct (is_none _); [|auto]. destruct r as [|m r]; [intros []|]. intros H. destruct H as [E|H]; [right; left; exact E|].
    right. right. apply IH, H.
  - destruct (negb _); [auto|]. intros H. destruct H as [E|H]; [left; exact E|]. right. apply IH, H.
Qed.
Lemma left_keywords_incl e args kws x : In x (left_keywords e args kws) -> In x kws.
Proof. unfold left_keywords. destruct (existsb _ args); [auto|apply left_over_incl]. Qed.
End Left.

(** ** [run_generator] is [generate] *)
Lemma run_generator_exact c b d i :
  generate c b d i = andthen (run_generator c b d i) (fun x => Ret (fst (fst x))).
Proof.
  unfold generate, run_generator. destruct (exec c b _) as [[w s]|x]; [|reflexivity]. cbn [andthen].
  destruct w as [[r| |[|]]|]; try reflexivity. destruct (String.eqb (render r) "misidentify"); [reflexivity|].
  destruct (String.eqb (render r) "unchange"); [reflexivity|]. destruct (String.eqb (render r) ""); reflexivity.
Qed.

(** ** Which matchers are found *)
Lemma make_matcher_found n r a c w : make_matcher n r = LMatcher a c w ->
  r = Some w /\ a = n /\ r_matcher w = Some c /\ r_disable w = false.
Proof.
  destruct r as [r|]; cbn [make_matcher]; [|discriminate]. destruct (r_disable r) eqn:D; [discriminate|].
  destruct (r_matcher r) as [m|] eqn:M; [|discriminate]. destruct (mem_str m matcher_classes); [|discriminate].
  intros [= <- <- <-]. auto.
Qed.
Lemma last_wildcard_in n r : last_wildcard n = Some r -> In r wildcard_mapping /\ re_match (r_name r) n = true.
Proof.
  unfold last_wildcard. assert (G : forall l acc, fold_left (fun acc r => if re_match (r_name r) n then Some r else acc) l acc = Some r ->
    acc = Some r \/ In r l /\ re_match (r_name r) n = true).
  { induction l as [|x l IH]; intros acc H; [auto|]. cbn [fold_left] in H. apply IH in H as [H|[H M]]; [|right; split; [right; exact H|exact M]].
    destruct (re_match (r_name x) n) eqn:E; [injection H as ->; right; split; [left; reflexivity|exact E]|auto]. }
  intros H. apply G in H as [H|H]; [discriminate|exact H].
Qed.
Lemma get_matcher_found tb n a c r : get_matcher tb n = LMatcher a c r ->
  a = canonical n /\ r_matcher r = Some c /\ r_disable r = false /\
  (In r tb /\ r_name r = a \/ In r wildcard_mapping /\ re_match (r_name r) a = true).
Proof.
  unfold get_matcher. destruct (_ && _); [discriminate|]. intros H. cbv zeta in H. apply make_matcher_found in H as (R & -> & M & D).
  split; [reflexivity|]. split; [exact M|]. split; [exact D|].
  destruct (find_row (canonical n) tb) as [x|] eqn:F.
  - injection R as ->. left. apply find_row_some in F. exact F.
  - right. apply last_wildcard_in, R.
Qed.

(** ** What the answers are *)
Section Answers.
Variable t : tools.
Definition fine (a : answer) : Prop := a <> ADelete /\ (forall l, a = ANodes l -> exists text, parse t text = Ok l).
Lemma fine_nodes text l : parse t text = Ok l -> fine (ANodes l).
Proof. intros E. split; [discriminate|]. intros l' [= <-]. exists text. exact E. Qed.
Lemma fine_plain a : a = AMisidentify \/ a = AUnchange \/ a = ANothing -> fine a.
Proof. intros [E|[E|E]]; rewrite E; (split; [discriminate|]; intros l; discriminate). Qed.
Lemma as_nodes_fine code l w a l' w' : as_nodes t code l w = Ok (a, l', w') -> fine a.
Proof.
  unfold as_nodes. destruct (parse t code) as [ns|] eqn:E; [|discriminate]. intros [= <- _ _]. eapply fine_nodes, E.
Qed.
Lemma from_code_fine c w a l' w' : from_code t c w = Ok (a, l', w') -> fine a.
Proof. destruct c; [apply as_nodes_fine|discriminate]. Qed.
Lemma from_answer_fine cls x w a l' w' : from_answer t cls x w = Ok (a, l', w') -> fine a.
Proof.
  destruct x; cbn [from_answer]; try discriminate.
  - destruct (enable_if _ _ _ _). apply as_nodes_fine.
  - intros [= <- _ _]. apply fine_plain. auto.
  - intros [= <- _ _]. apply fine_plain. auto.
  - destruct (enable_if _ _ _ _). intros [= <- _ _]. apply fine_plain. auto.
Qed.
Lemma from_generator_fine m strict b recv d w a l' w' : from_generator t m strict b recv d w = Ok (a, l', w') -> fine a.
Proof.
  unfold from_generator. destruct (run_generator _ _ _ _) as [[[g i] h]|]; [|discriminate]. destruct (enable_if _ _ _ _).
  destruct g; [apply as_nodes_fine| | |]; intros [= <- _ _]; apply fine_plain; auto.
Qed.
Lemma from_parsed_fine p w k a l' w' : (forall d, k d = Ok (a, l', w') -> fine a) -> from_parsed p w k = Ok (a, l', w') -> fine a.
Proof.
  intros K. destruct p; cbn [from_parsed]; [apply K| | |discriminate]; intros [= <- _ _]; apply fine_plain; auto.
Qed.
Lemma special_fine m recv name args kws w r a l' w' : special_nodes t m recv name args kws w = Some r -> r = Ok (a, l', w') -> fine a.
Proof.
  unfold special_nodes. intros S E.
  repeat match type of S with (if ?c then _ else _) = _ => destruct c end; try discriminate S;
    try (injection S as <-; eapply from_answer_fine; exact E).
  - destruct (Special.setup_nodes _ _ _ _). injection S as <-. eapply from_answer_fine; exact E.
  - injection S as <-. eapply from_parsed_fine; [|exact E]. intros d H. eapply from_generator_fine; exact H.
  - injection S as <-. destruct (_ <? _)%nat; [injection E as <- _ _; apply fine_plain; auto|].
    eapply from_parsed_fine; [|exact E]. intros d H. eapply from_generator_fine; exact H.
Qed.
Lemma base_fine m recv args kws w a l' w' : base_nodes t m recv args kws w = Ok (a, l', w') -> fine a.
Proof.
  apply from_parsed_fine. intros d. destruct (dget _ _ _) as [[s b]|]; [apply from_generator_fine|discriminate].
Qed.
Lemma nodes_of_fine m recv name args kws w a l' w' args' kws' : nodes_of t m recv name args kws w = Ok (a, l', w', (args', kws')) ->
  fine a /\ args' = args /\ incl kws' kws.
Proof.
  unfold nodes_of. destruct (printed_again (m_class m)) as [f|].
  - destruct (from_code _ _ _) as [[[a1 l1] w1]|] eqn:E; [|discriminate]. intros [= <- <- <- <- <-].
    split; [eapply from_code_fine; exact E|]. split; [reflexivity|apply incl_refl].
  - assert (K : incl (if removes_keywords (m_class m) then left_keywords (r_entry (m_row m)) args kws else kws) kws).
    { destruct (removes_keywords _); [|apply incl_refl]. intros x. apply left_keywords_incl. }
    destruct (special_nodes _ _ _ _ _ _ _) as [r|] eqn:S.
    + destruct r as [[[a1 l1] w1]|] eqn:R; [|discriminate]. intros [= <- <- <- <- <-].
      split; [eapply special_fine; [exact S|reflexivity]|]. split; [reflexivity|exact K].
    + destruct (base_nodes _ _ _ _ _ _) as [[[a1 l1] w1]|] eqn:R; [|discriminate]. intros [= <- <- <- <- <-].
      split; [eapply base_fine; exact R|]. split; [reflexivity|exact K].
Qed.
Lemma in_order_ok x a y l w : in_order x = Ok (a, y, l, w) -> x = Ok (a, l, w, y).
Proof. destruct x as [[[[a1 l1] w1] y1]|]; [|discriminate]. intros [= <- <- <- <-]. reflexivity. Qed.
Lemma call_fine m args kws st w a args' kws' l' w' : shipped_call t m args kws st w = Ok (a, (args', kws'), l', w') ->
  fine a /\ args' = args /\ incl kws' kws.
Proof.
  unfold shipped_call. destruct (paddle_name t m) as [p|]; [|discriminate]. cbn [bind]. intros H. apply in_order_ok in H.
  eapply nodes_of_fine, H.
Qed.
Lemma own_fine m x w (args kws args' kws' : list node) a l' w' : in_order (let* r := from_answer t (m_class m) x w in Ok (r, (args, kws))) = Ok (a, (args', kws'), l', w') ->
  fine a /\ args' = args /\ incl kws' kws.
Proof.
  intros H. apply in_order_ok in H. destruct (from_answer _ _ _ _) as [[[a1 l1] w1]|] eqn:E; [|discriminate].
  injection H as <- <- <- <- <-. split; [eapply from_answer_fine; exact E|]. split; [reflexivity|apply incl_refl].
Qed.
Lemma method_fine m f args kws st w a args' kws' l' w' : shipped_method t m f args kws st w = Ok (a, (args', kws'), l', w') ->
  fine a /\ args' = args /\ incl kws' kws.
Proof.
  unfold shipped_method. cbv zeta. destruct (String.eqb (m_class m) "TensorRenameMatcher"); [apply own_fine|].
  destruct (String.eqb (m_class m) "ChangePrefixMatcher").
  - destruct (if min_mode t then _ else _) as [name|]; [|discriminate]. cbn [bind]. intros H. apply in_order_ok in H.
    destruct (from_code _ _ _) as [[[a1 l1] w1]|] eqn:E; [|discriminate]. injection H as <- <- <- <- <-.
    split; [eapply from_code_fine; exact E|]. split; [reflexivity|apply incl_refl].
  - destruct (paddle_name t m) as [p|]; [|discriminate]. cbn [bind].
    destruct (String.eqb (m_class m) "TensorMaxMatcher"); [apply own_fine|].
    destruct (String.eqb (m_class m) "TensorMinMatcher"); [apply own_fine|].
    destruct (String.eqb (m_class m) "TensorStftMatcher"); [apply own_fine|].
    intros H. apply in_order_ok in H. eapply nodes_of_fine, H.
Qed.
Lemma attribute_fine m n st w a l' w' : shipped_attribute t m n st w = Ok (a, l', w') -> fine a.
Proof.
  unfold shipped_attribute. destruct (mem_str _ _); [intros [= <- _ _]; apply fine_plain; auto|].
  destruct (paddle_name t m) as [p|]; [|discriminate]. cbn [bind]. destruct (enable_if _ _ _ _).
  destruct (String.eqb _ "Attribute2Func"); [|apply as_nodes_fine].
  destruct (Special.attribute_to_call _); [apply as_nodes_fine| | | |]; intros [= <- _ _]; apply fine_plain; auto.
Qed.

(** What replaces a call contains no block owner. *)
Lemma fine_simple : reads_expressions (parse t) -> forall a l, fine a -> a = ANodes l -> l <> [] ->
  In (kind_of (result_node l)) call_results -> simple (result_node l).
Proof.
  intros P a l [_ F] E NE K. destruct (F l E) as [text T].
  destruct (exists_last NE) as (l0 & x & X). rewrite X, result_last in *.
  assert (I : In x (l0 ++ [x])) by (apply in_or_app; right; left; reflexivity).
  destruct (P text _ x T I) as [V S]. destruct (result_expression x) as [H|[H _]].
  - destruct H as [fs v C|y N]; [apply V; exact C|exact (S K)].
  - rewrite H in K. revert K. cbn [call_results In]. intuition discriminate.
Qed.
Lemma shipped_gives imps : reads_expressions (parse t) -> gives_expressions (shipped_env t imps).
Proof.
  intros P. split; [|split; [|split]].
  - intros s n. cbn [parse_expr shipped_env]. unfold parse_value. destruct (parse t s) as [l|] eqn:E; [|discriminate].
    cbn [bind]. destruct l as [|x l]; [discriminate|]. destruct (child_at x (At "value" 0)) as [v|] eqn:C; [|discriminate].
    intros [= <-]. destruct (P s (x :: l) x E (or_introl eq_refl)) as [V _]. apply V, C.
  - intros m n st w l imps' w' H NE K. cbn [attr_nodes shipped_env] in H. apply attribute_fine in H.
    exact (fine_simple P _ l H eq_refl NE K).
  - intros m a k st w x a' k' imps' w' H A K. cbn [call_nodes shipped_env] in H. apply call_fine in H as (F & -> & I).
    split; [exact A|]. split; [apply Forall_forall; intros y Y; rewrite Forall_forall in K; apply K, I, Y|].
    intros l E. exact (fine_simple P _ l F E).
  - intros m f a k st w x a' k' imps' w' H A K. cbn [class_nodes shipped_env] in H. apply method_fine in H as (F & -> & I).
    split; [exact A|]. split; [apply Forall_forall; intros y Y; rewrite Forall_forall in K; apply K, I, Y|].
    intros l E. exact (fine_simple P _ l F E).
Qed.
End Answers.

(** ** No name is "delete" *)
Definition starts_with_d (s : string) : bool := match s with String c _ => Ascii.eqb c "d"%char | _ => false end.
Lemma replace_head old new c r : prefix old (String c r) = false \/ (exists b u, new = String b u /\ b <> "d"%char) ->
  c <> "d"%char -> py_replace (String c r) old new <> "delete".
Proof.
  intros H N. unfold py_replace. cbn [replace_aux]. destruct (prefix old (String c r)).
  - destruct H as [H|(b & u & -> & B)]; [discriminate|]. cbn [append]. intros [= E _]. contradiction.
  - intros [= E _]. contradiction.
Qed.
Lemma prefix_rows_kept : forallb (fun r => negb (match r_matcher r with Some m => String.eqb m "ChangePrefixMatcher" | None => false end)
    || match change_prefix_name false (r_name r) "" with Some n => negb (String.eqb n "delete") | None => true end) shipped = true.
Proof. vm_compute. reflexivity. Qed.
Lemma wildcard_heads : forallb (fun r => match r_name r, r_matcher r with
    | String c _, Some m => negb (Ascii.eqb c "d") && negb (Ascii.eqb c ".") && negb (String.eqb m "ChangePrefixMatcher")
        && match paddle_api (r_entry r) with None => true | _ => false end
    | _, _ => false end) wildcard_mapping = true.
Proof. vm_compute. reflexivity. Qed.
Lemma class_rows : forallb (fun r => match r_matcher r with
    | Some m => negb (mem_str m ["EinopsTorchMatcher"; "TransformersGenericMatcher"]) | None => true end) shipped = true.
Proof. vm_compute. reflexivity. Qed.
Lemma rows_kept : forallb (fun r => negb (match paddle_api (r_entry r) with Some p => String.eqb p "delete" | None => false end)) shipped = true.
Proof. vm_compute. reflexivity. Qed.

Lemma attribute_lookup_found n a c r : attribute_lookup n = LMatcher a c r ->
  get_attribute_matcher n = LMatcher a c r \/ get_api_matcher n = LMatcher a c r.
Proof.
  unfold attribute_lookup. destruct (get_attribute_matcher n); try discriminate; destruct (get_api_matcher n); try discriminate; auto.
Qed.
Lemma lookup_rows n a c r : attribute_lookup n = LMatcher a c r -> r_matcher r = Some c /\
  (In r shipped /\ r_name r = a \/ In r wildcard_mapping /\ re_match (r_name r) a = true).
Proof.
  intros H. unfold shipped. apply attribute_lookup_found in H as [H|H]; apply get_matcher_found in H as (_ & M & _ & [[I N]|I]);
    split; auto; left; split; auto; apply in_or_app; auto.
Qed.
Lemma name_not_delete t n a c r origin : attribute_lookup n = LMatcher a c r -> origin <> "delete" ->
  paddle_name t (MkMatcher a c r origin) <> Ok (Some "delete").
Proof.
  intros L O. apply lookup_rows in L as (M & R). unfold paddle_name. cbn [m_class m_row m_api m_origin].
  destruct (String.eqb_spec c "ChangePrefixMatcher") as [->|N1].
  { destruct (min_mode t); [cbn [change_prefix_name]; intros [= E]; exact (O E)|].
    destruct R as [[I <-]|[I _]].
    - pose proof (proj1 (forallb_forall _ _) prefix_rows_kept r I) as H. cbv beta in H. rewrite M in H. cbn [String.eqb] in H.
      change (change_prefix_name false (r_name r) origin) with (change_prefix_name false (r_name r) "").
      destruct (change_prefix_name false (r_name r) "") as [x|]; [|discriminate].
      intros [= E]. rewrite E in H. discriminate H.
    - pose proof (proj1 (forallb_forall _ _) wildcard_heads r I) as H. cbv beta in H. rewrite M in H.
      destruct (r_name r); [discriminate|]. rewrite !andb_true_iff in H. destruct H as [[_ H] _]. discriminate. }
  assert (H : paddle_api (r_entry r) <> Some "delete").
  { destruct R as [[I _]|[I _]].
    - pose proof (proj1 (forallb_forall _ _) rows_kept r I) as H. cbv beta in H. intros E. rewrite E in H. discriminate.
    - pose proof (proj1 (forallb_forall _ _) wildcard_heads r I) as H. cbv beta in H. rewrite M in H.
      destruct (r_name r); [discriminate|]. apply andb_prop in H as [_ H]. intros E. rewrite E in H. discriminate. }
  destruct (String.eqb c "ChangeAPIMatcher"); [destruct (get_paddle_api_returns _ _ _); [intros [= E]; exact (H E)|discriminate]|].
  assert (W : mem_str c ["EinopsTorchMatcher"; "TransformersGenericMatcher"] = true -> exists ch s, a = String ch s /\ ch <> "d"%char).
  { intros X. destruct R as [[I _]|[I Q]].
    - pose proof (proj1 (forallb_forall _ _) class_rows r I) as Y. cbv beta in Y. rewrite M, X in Y. discriminate.
    - pose proof (proj1 (forallb_forall _ _) wildcard_heads r I) as Y. cbv beta in Y. rewrite M in Y.
      destruct (r_name r) as [|ch pat]; [discriminate|]. rewrite !andb_true_iff in Y. destruct Y as [[[Y Y'] _] _].
      cbn [re_match] in Q. destruct (Ascii.eqb ch ".") eqn:D; [discriminate|]. destruct a as [|x a]; [discriminate|].
      apply andb_prop in Q as [Q _]. exists x, a. split; [reflexivity|]. apply Ascii.eqb_eq in Q as ->. intros ->. discriminate. }
  destruct (String.eqb_spec c "EinopsTorchMatcher") as [->|].
  { destruct (W eq_refl) as (ch & s & -> & N). intros [= E]. revert E. apply replace_head; [|exact N]. right. eexists _, _. split; [reflexivity|discriminate]. }
  destruct (String.eqb_spec c "TransformersGenericMatcher") as [->|].
  { destruct (W eq_refl) as (ch & s & -> & N). intros [= E]. revert E. apply replace_head; [|exact N]. right. eexists _, _. split; [reflexivity|discriminate]. }
  destruct (String.eqb c "FAApplyRotaryEmbFuncMatcher"); [discriminate|].
  destruct (_ && _); [discriminate|]. intros [= E]. exact (H E).
Qed.
Lemma shipped_deletes_nothing t imps : deletes_nothing (shipped_env t imps).
Proof.
  split; [|split; [|split]].
  - intros n a c r origin st w l w' L O H. cbn [api_of shipped_env] in H. unfold shipped_api in H.
    destruct (paddle_name t (MkMatcher a c r origin)) as [p|] eqn:P; [|discriminate]. cbn [bind] in H.
    destruct (enable_if _ _ _ _). injection H as -> _ _. exact (name_not_delete t n a c r origin L O P).
  - intros n a c r origin nd st w l w' _ H. cbn [attr_nodes shipped_env] in H. apply attribute_fine in H as [H _]. exact (H eq_refl).
  - intros n a c r origin args kws st w x l w' _ H. cbn [call_nodes shipped_env] in H. destruct x. apply call_fine in H as [[H _] _]. exact (H eq_refl).
  - intros n a c r origin f args kws st w x l w' _ H. cbn [class_nodes shipped_env] in H. destruct x. apply method_fine in H as [[H _] _]. exact (H eq_refl).
Qed.
