(** The table of recorded statements does what the reference conversion does. *)
From Coq Require Import Lia.
From Verif Require Import PyStr PyStrFacts PyDict PyDictFacts TablesData Lookup Ast AstFacts ImportPass ImportSpec ImportFacts3 Walk BasicPass NodeEq ConvSpec ConvFacts ScopeSpec ScopeFacts Placed PlacedUniform.
From Verif Require Scope.
Opaque api_mapping attribute_mapping alias_mapping wildcard_mapping matcher_classes.

(** ** Simple and parsed nodes *)
Definition fsimple (f : field) : Prop := match f with One _ c => simple c | Many _ l => Forall simple l | Data _ _ => True end.
Lemma owners_eq k : In k block_owners <-> In k scope_kinds.
Proof. unfold block_owners, scope_kinds. cbn [In]. tauto. Qed.
Lemma owners_mem k : mem_str k block_owners = mem_str k scope_kinds.
Proof.
  destruct (mem_str k block_owners) eqn:E, (mem_str k scope_kinds) eqn:F; try reflexivity.
  - apply mem_str_In, owners_eq, mem_str_In in E. congruence.
  - apply mem_str_In, owners_eq, mem_str_In in F. congruence.
Qed.
Lemma names_mem k : mem_str k block_names = mem_str k Scope.scope_fields.
Proof.
  assert (H : In k block_names <-> In k Scope.scope_fields) by (unfold block_names, Scope.scope_fields; cbn [In]; tauto).
  destruct (mem_str k block_names) eqn:E, (mem_str k Scope.scope_fields) eqn:F; try reflexivity.
  - apply mem_str_In, H, mem_str_In in E. congruence.
  - apply mem_str_In, H, mem_str_In in F. congruence.
Qed.
Lemma simple_kind n : simple n -> ~ In (kind_of n) block_owners.
Proof. intros H. apply H. destruct n; left; reflexivity. Qed.
Lemma forall_simple l : Forall simple l <-> forall m, In m (flat_map nodes l) -> ~ In (kind_of m) block_owners.
Proof.
  rewrite Forall_forall. split.
  - intros H m Hm. apply in_flat_map in Hm as (x & Hx & Hm). exact (H x Hx m Hm).
  - intros H x Hx m Hm. apply H. apply in_flat_map. eauto.
Qed.
Lemma simple_attr v a : simple (Attribute v a) <-> simple v.
Proof.
  split; intros H m Hm.
  - apply H. right. exact Hm.
  - destruct Hm as [<-|Hm]; [cbn; intros; intuition discriminate|]. apply H, Hm.
Qed.
Lemma simple_call f a k : simple (Call f a k) <-> simple f /\ Forall simple a /\ Forall simple k.
Proof.
  rewrite !forall_simple. split.
  - intros H. repeat split; intros m Hm; apply H; right; apply in_or_app; [left|right; apply in_or_app; left|right; apply in_or_app; right]; exact Hm.
  - intros (H1 & H2 & H3) m [<-|Hm]; [cbn; intros; intuition discriminate|].
    apply in_app_iff in Hm as [Hm|Hm]; [apply H1, Hm|]. apply in_app_iff in Hm as [Hm|Hm]; auto.
Qed.
Definition field_nodes (f : field) : list node := match f with One _ c => nodes c | Many _ l => flat_map nodes l | Data _ _ => [] end.
Lemma fsimple_nodes f : fsimple f <-> forall m, In m (field_nodes f) -> ~ In (kind_of m) block_owners.
Proof. destruct f as [nm c|nm l|nm x]; cbn [fsimple field_nodes]; [reflexivity|apply forall_simple|]. cbn. tauto. Qed.
Lemma simple_other k fs : simple (Other k fs) <-> ~ In k block_owners /\ Forall fsimple fs.
Proof.
  rewrite Forall_forall. split.
  - intros H. split; [apply (H (Other k fs)); left; reflexivity|]. intros f Hf. apply fsimple_nodes. intros m Hm. apply H. right.
    apply in_flat_map. exists f. split; [exact Hf|]. destruct f; exact Hm.
  - intros [H1 H2] m [<-|Hm]; [exact H1|]. apply in_flat_map in Hm as (f & Hf & Hm).
    apply (proj1 (fsimple_nodes f) (H2 f Hf)). destruct f; exact Hm.
Qed.
Lemma simple_leaf n : match n with Attribute _ _ | Call _ _ _ | Other _ _ => False | _ => True end -> simple n.
Proof. destruct n; try tauto; intros _ m [<-|[]]; cbn; intuition discriminate. Qed.
Lemma set_field_simple nm v : Forall simple (spliced v) -> Forall fsimple (set_field nm v).
Proof. destruct v as [n| |l]; cbn; intros H; repeat constructor; [inversion_clear H; assumption|exact H]. Qed.
Lemma attr_with_simple v a : Forall simple (spliced v) -> simple (attr_with v a).
Proof.
  destruct v as [n| |l]; cbn [attr_with spliced]; intros H.
  - inversion_clear H. apply simple_attr. assumption.
  - apply simple_other. split; [cbn; intuition discriminate|]. repeat constructor.
  - apply simple_other. split; [cbn; intuition discriminate|]. repeat constructor. exact H.
Qed.
Lemma call_with_simple v a k : Forall simple (spliced v) -> Forall simple a -> Forall simple k -> simple (call_with v a k).
Proof.
  destruct v as [n| |l]; cbn [call_with spliced]; intros H A K.
  - inversion_clear H. apply simple_call. auto.
  - apply simple_other. split; [cbn; intuition discriminate|]. repeat constructor; assumption.
  - apply simple_other. split; [cbn; intuition discriminate|]. repeat constructor; assumption.
Qed.
Lemma simple_dec n : {simple n} + {~ simple n}.
Proof.
  destruct (forallb (fun m => negb (mem_str (kind_of m) block_owners)) (nodes n)) eqn:E.
  - left. intros m Hm I. rewrite forallb_forall in E. apply E in Hm. apply mem_str_In in I. rewrite I in Hm. discriminate.
  - right. intros S. assert (T : forallb (fun m => negb (mem_str (kind_of m) block_owners)) (nodes n) = true); [|congruence].
    apply forallb_forall. intros m Hm. apply negb_true_iff. destruct (mem_str _ _) eqn:I; [|reflexivity].
    apply mem_str_In in I. exfalso. exact (S m Hm I).
Qed.
Definition field_kids (f : field) : list node := match f with One _ c => [c] | Many _ l => l | Data _ _ => [] end.
Lemma parsed_kid k fs f c : parsed (Other k fs) -> In f fs -> In c (field_kids f) -> parsed c.
Proof.
  intros (H1 & H2 & H3) Hf Hc.
  assert (S : forall m, In m (nodes c) -> In m (nodes (Other k fs))).
  { intros m Hm. right. apply in_flat_map. exists f. split; [exact Hf|].
    destruct f as [nm x|nm l|nm x]; cbn in Hc.
    - destruct Hc as [->|[]]. exact Hm.
    - apply in_flat_map. eauto.
    - contradiction. }
  split; [|split; intros; eauto]. intros k' fs' H. apply H1, S, H.
Qed.
Lemma parsed_names k fs : parsed (Other k fs) -> NoDup (map field_name fs).
Proof. intros (H & _). apply (H k). left. reflexivity. Qed.
Lemma parsed_blocks k fs : parsed (Other k fs) -> In k block_owners -> forall nm c, In (One nm c) fs -> ~ In nm block_names.
Proof. intros (H & _). apply (H k). left. reflexivity. Qed.
Lemma parsed_fit n : parsed n -> fit n.
Proof.
  intros (H & _) k fs I E. destruct (H k fs I) as (N & _ & V). destruct (V E) as [c Hc]. exists c. clear -N Hc.
  induction fs as [|f fs IH]; [contradiction|]. cbn [map] in N. inversion_clear N as [|? ? N1 N2]. destruct Hc as [->|Hc]; [reflexivity|].
  assert (D : field_name f <> "value") by (intros D; apply N1; rewrite D; apply in_map_iff; exists (One "value" c); auto).
  cbn [field_child p_field]. destruct (String.eqb_spec "value" (field_name f)) as [X|_]; [congruence|].
  destruct (String.eqb_spec (field_name f) "value") as [X|_]; [congruence|]. auto.
Qed.
Lemma parsed_other n : parsed n -> simple n \/ exists k fs, n = Other k fs.
Proof.
  intros (_ & H2 & H3). destruct n as [i|v a|f a k|l|m l i|k fs]; try (left; apply simple_leaf; exact Logic.I).
  - left. apply H2. left. reflexivity.
  - left. apply H3. left. reflexivity.
  - right. eauto.
Qed.

(** ** Results of a visitor are simple *)
Section Results.
Context {M : Type}.
Variable e : benv M.
Hypothesis G : gives_expressions e.
Notation bst := (bst M).
Lemma attribute_kinds k : In k attribute_results -> In k call_results.
Proof. cbn. tauto. Qed.
Lemma method_kinds k : In k method_results -> In k call_results.
Proof. cbn. tauto. Qed.
Definition simple_reply (r : reply) : Prop := Forall simple (spliced (value_of r)).
Lemma simple_node n : simple n -> simple_reply (Reply (VNode n)).
Proof. intros H. repeat constructor. exact H. Qed.
Lemma simple_none : simple_reply (Reply VNone). Proof. constructor. Qed.
Lemma rest_simple n api origin st (s : bst) r s' : simple n -> attribute_rest e n api origin st s = Ok (r, s') -> simple_reply r.
Proof.
  intros N. unfold attribute_rest. destruct (3 <=? _)%nat; [|intros [= <- <-]; apply simple_node, N].
  destruct (matcher_of _ _) as [[m|]|]; cbn [bind]; [|intros [= <- <-]; apply simple_node, N|discriminate].
  destruct (ask_api e m st s) as [[[p|] s1]|]; cbn [bind]; try discriminate.
  destruct (String.eqb p "unchange"); [intros [= <- <-]; apply simple_node, N|].
  destruct (parse_expr e _) as [new|] eqn:E; cbn [bind]; [|discriminate]. intros [= <- <-]. apply simple_node.
  exact (proj1 G _ _ E).
Qed.
Lemma torch_attribute_simple n api origin st (s : bst) r s' : simple n -> visit_torch_attribute e n api origin st s = Ok (r, s') -> simple_reply r.
Proof.
  intros N. unfold visit_torch_attribute. destruct (matcher_of _ _) as [[m|]|]; cbn [bind]; [|apply rest_simple, N|discriminate].
  destruct (ask_api e m st _) as [[[p|] s1]|]; cbn [bind]; [|apply rest_simple, N|discriminate].
  destruct (String.eqb p "delete").
  { destruct (parent_is "Expr" st) as [a|]; cbn [bind]; [|discriminate].
    destruct (parent_is "FunctionDef" st) as [b|]; cbn [bind]; [|discriminate].
    destruct a; [intros [= <- <-]; apply simple_none|]. destruct (b && _); [intros [= <- <-]; constructor|apply rest_simple, N]. }
  destruct (String.eqb p "misidentify"); [intros [= <- <-]; apply simple_node, N|].
  destruct (String.eqb p "unchange"); [intros [= <- <-]; apply simple_node, N|].
  destruct (String.eqb p ""); [apply rest_simple, N|].
  destruct (parse_expr e p) as [new|] eqn:E; cbn [bind]; [|discriminate]. intros [= <- <-]. apply simple_node. exact (proj1 G _ _ E).
Qed.
Lemma annotate_simple n api st (s : bst) r s' : simple n -> (let* s := annotate api st s in Ok (Reply (VNode n), s)) = Ok (r, s') -> simple_reply r.
Proof. intros N. destruct (annotate api st s); cbn [bind]; [|discriminate]. intros [= <- <-]. apply simple_node, N. Qed.
Lemma class_attribute_simple n api origin st (s : bst) r s' : simple n -> trans_class_attribute e n api origin st s = Ok (r, s') -> simple_reply r.
Proof.
  intros N. unfold trans_class_attribute. destruct (matcher_of _ _) as [[m|]|]; cbn [bind]; [|apply annotate_simple, N|discriminate].
  destruct (ask_and_note e api m st s) as [s1|]; cbn [bind]; [|discriminate].
  destruct (attr_nodes e m n st (shared s1)) as [[[a l] w]|] eqn:E; cbn [bind]; [|discriminate].
  destruct (insert_multi_node e l st _) as [[b s2]|]; cbn [bind]; [|discriminate].
  destruct a as [| | |ns|].
  - destruct (parent_is "Expr" st) as [x|]; cbn [bind]; [|discriminate]. destruct x; [intros [= <- <-]; apply simple_none|apply annotate_simple, N].
  - intros [= <- <-]; apply simple_node, N.
  - intros [= <- <-]; apply simple_node, N.
  - destruct ns as [|x ns]; [apply annotate_simple, N|]. destruct (mem_str _ _) eqn:K; [|apply annotate_simple, N].
    destruct (insert_multi_node e _ st s2) as [[ok s3]|]; cbn [bind]; [|discriminate].
    destruct ok; [|apply annotate_simple, N]. intros [= <- <-]. apply simple_node.
    destruct G as (_ & G2 & _). apply (G2 _ _ _ _ _ _ _ E); [discriminate|]. apply attribute_kinds, mem_str_In, K.
  - apply annotate_simple, N.
Qed.
Lemma attribute_simple n st (s : bst) r s' : simple n -> finish_attribute e n st s = Ok (r, s') -> simple_reply r.
Proof.
  intros N. unfold finish_attribute. destruct (parent st) as [p|]; cbn [bind]; [|discriminate].
  destruct (_ && _); [intros [= <- <-]; apply simple_node, N|].
  destruct (replace_torch_module e _) as [full|]; cbn [bind]; [|discriminate].
  destruct (start_with_torch e full); [apply torch_attribute_simple, N|].
  destruct (contains _ _); [intros [= <- <-]; apply simple_node, N|].
  destruct (find _ _); [apply class_attribute_simple, N|]. intros [= <- <-]; apply simple_node, N.
Qed.
Lemma torch_call_simple f a k api origin st (s : bst) r s' : simple (Call f a k) ->
  visit_torch_call e f a k api origin st s = Ok (r, s') -> simple_reply r.
Proof.
  intros N. pose proof N as N'. apply simple_call in N' as (Nf & Na & Nk).
  unfold visit_torch_call. destruct (matcher_of _ _) as [[m|]|]; cbn [bind]; [|intros [= <- <-]; apply simple_node, N|discriminate].
  destruct (ask_and_note e api m st _) as [s1|]; cbn [bind]; [|discriminate].
  destruct (call_nodes e m a k st (shared s1)) as [[[[x kept] l] w]|] eqn:E; cbn [bind]; [|discriminate].
  destruct kept as [a' k']. destruct G as (_ & _ & G3 & _). destruct (G3 _ _ _ _ _ _ _ _ _ _ E Na Nk) as (Ga & Gk & Gx).
  assert (C : simple (Call f a' k')) by (apply simple_call; auto). cbn [fst snd].
  destruct (insert_multi_node e l st _) as [[b s2]|]; cbn [bind]; [|discriminate].
  destruct x as [| | |ns|].
  - destruct (parent_is "Expr" st) as [x|]; cbn [bind]; [|discriminate]. destruct x; intros [= <- <-]; [apply simple_none|apply simple_node, C].
  - intros [= <- <-]; apply simple_node, C.
  - intros [= <- <-]; apply simple_node, C.
  - destruct ns as [|x ns]; [intros [= <- <-]; apply simple_node, C|]. destruct (mem_str _ _) eqn:K; [|intros [= <- <-]; apply simple_node, C].
    destruct (insert_multi_node e _ st s2) as [[ok s3]|]; cbn [bind]; [|discriminate].
    destruct ok; intros [= <- <-]; apply simple_node; [|exact C]. apply (Gx _ eq_refl); [discriminate|]. apply mem_str_In, K.
  - intros [= <- <-]; apply simple_node, C.
Qed.
Lemma class_method_simple f a k api origin st (s : bst) r s' : simple (Call f a k) ->
  trans_class_method e f a k api origin st s = Ok (r, s') -> simple_reply r.
Proof.
  intros N. pose proof N as N'. apply simple_call in N' as (Nf & Na & Nk).
  unfold trans_class_method. destruct (matcher_of _ _) as [[m|]|]; cbn [bind]; [|apply annotate_simple, N|discriminate].
  destruct (ask_and_note e api m st _) as [s1|]; cbn [bind]; [|discriminate].
  set (sf := match a with x :: _ => is_self x | [] => false end).
  assert (Nt : Forall simple (if sf then tl a else a)) by (destruct sf; [destruct Na; [constructor|assumption]|exact Na]).
  destruct (class_nodes e m f _ k st (shared s1)) as [[[[x kept] l] w]|] eqn:E; cbn [bind]; [|discriminate].
  destruct kept as [a' k']. destruct G as (_ & _ & _ & G4). destruct (G4 _ _ _ _ _ _ _ _ _ _ _ E Nt Nk) as (Ga & Gk & Gx).
  cbn [fst snd]. set (a2 := if sf then a else a').
  assert (C : simple (Call f a2 k')) by (apply simple_call; split; [exact Nf|]; split; [unfold a2; destruct sf; assumption|exact Gk]).
  destruct (insert_multi_node e l st _) as [[b s2]|]; cbn [bind]; [|discriminate].
  destruct x as [| | |ns|].
  - destruct (parent_is "Expr" st) as [x|]; cbn [bind]; [|discriminate]. destruct x; [intros [= <- <-]; apply simple_none|apply annotate_simple, C].
  - intros [= <- <-]; apply simple_node, C.
  - intros [= <- <-]; apply simple_node, C.
  - destruct ns as [|x ns]; [apply annotate_simple, C|]. destruct (mem_str _ _) eqn:K; [|apply annotate_simple, C].
    destruct (insert_multi_node e _ st s2) as [[ok s3]|]; cbn [bind]; [|discriminate].
    destruct ok; [|apply annotate_simple, C]. intros [= <- <-]; apply simple_node.
    assert (S : simple (result_node (x :: ns))) by (apply (Gx _ eq_refl); [discriminate|]; apply method_kinds, mem_str_In, K).
    destruct (result_node (x :: ns)) as [| |f1 a1 k1| | |]; try exact S. apply simple_call in S as (S1 & S2 & S3). apply simple_call.
    repeat split; [exact S1| |exact S3]. destruct sf; [|exact S2]. constructor; [|exact S2]. apply simple_leaf. exact Logic.I.
  - apply annotate_simple, C.
Qed.
Lemma call_simple f a k st (s : bst) r s' : simple (Call f a k) -> finish_call e f a k st s = Ok (r, s') -> simple_reply r.
Proof.
  intros N. unfold finish_call.
  destruct (replace_torch_module e _) as [full|]; cbn [bind]; [|discriminate].
  destruct (_ || _); [apply torch_call_simple, N|].
  destruct (contains _ _); [intros [= <- <-]; apply simple_node, N|].
  destruct (find _ _); [apply class_method_simple, N|]. intros [= <- <-]; apply simple_node, N.
Qed.
Lemma dotted_simple t : simple (parse_dotted t).
Proof.
  unfold parse_dotted. destruct (split_on "."%char t) as [|h r]; [apply simple_leaf; exact Logic.I|].
  assert (H : simple (Name h)) by (apply simple_leaf; exact Logic.I). revert H. generalize (Name h).
  induction r as [|x r IH]; intros n H; cbn [fold_left]; [exact H|]. apply IH. apply simple_attr, H.
Qed.
Lemma post_simple n st (s : bst) r s' : simple n -> basic_post e n st s = Ok (r, s') -> simple_reply r.
Proof.
  intros N. destruct n as [i|v a|f a k|l|m l i|k fs]; cbn [basic_post].
  - unfold visit_name. destruct (parent st) as [p|]; cbn [bind]; [|discriminate].
    assert (H : Ok (Reply (VNode (Name i)), s) = Ok (r, s') -> simple_reply r) by (intros [= <- <-]; apply simple_node, N).
    destruct p as [| |[] a k| | |]; try exact H. destruct (mem_str _ _); [|exact H]. destruct (dget _ _ _); [|exact H].
    intros [= <- <-]. apply simple_node, dotted_simple.
  - apply attribute_simple, N.
  - apply call_simple, N.
  - intros [= <- <-]; apply simple_node, N.
  - intros [= <- <-]; apply simple_node, N.
  - destruct (mem_str k ["Attribute"; "Call"]); [discriminate|]. destruct (String.eqb k "Expr").
    { intros [= <- <-]. destruct (field_child fs _); [apply simple_node, N|apply simple_none]. }
    destruct (mem_str k scope_kinds) eqn:E; [|intros [= <- <-]; apply simple_node, N].
    exfalso. apply simple_kind in N. apply N, owners_eq, mem_str_In, E.
Qed.
End Results.
