(** Two runs of the same passes in different states: what the result depends on. *)
From Verif Require Import PyStr PyDict PyDictFacts Ast Walk ImportPass BasicPass CustomPass Converter Generate Shipped Dependence.
From Verif Require Special.

(** ** Two results that agree *)
Definition both {A} (P : A -> A -> Prop) (x y : res A) : Prop :=
  match x, y with
  | Ok a, Ok b => P a b
  | Raise a, Raise b => a = b
  | _, _ => False
  end.
Lemma both_bind {A B} (P : A -> A -> Prop) (Q : B -> B -> Prop) x y f g :
  both P x y -> (forall a b, P a b -> both Q (f a) (g b)) -> both Q (bind x f) (bind y g).
Proof. destruct x, y; cbn; [auto|intros []|intros []|]. intros -> _. reflexivity. Qed.
Lemma both_same {A B} (Q : B -> B -> Prop) (x : res A) f g :
  (forall a, both Q (f a) (g a)) -> both Q (bind x f) (bind x g).
Proof. destruct x; cbn; [auto|reflexivity]. Qed.
Definition out {A S} (P : S -> S -> Prop) (x y : A * S) : Prop := fst x = fst y /\ P (snd x) (snd y).

(** ** The traversal *)
Section Walks.
Context {S : Type}.
Variable P : S -> S -> Prop.
Definition wout {A} : A * wstate (S := S) -> A * wstate (S := S) -> Prop := out (out P).
Section Children.
  Variable V : walker (S := S).
  Hypothesis HV : forall n p a b, out P a b -> both wout (V n p a) (V n p b).
  Lemma list_alike nm : forall l i a b, out P a b -> both wout (walk_list V nm l i a) (walk_list V nm l i b).
  Proof.
    fix IH 1. intros [|x l] i a b H; cbn [walk_list]; [split; [reflexivity|exact H]|].
    eapply both_bind; [apply HV, H|]. intros [r a1] [r' b1] [E H1]. cbn in E, H1. subst r'.
    destruct r as [v|].
    - eapply both_bind; [apply IH, H1|]. intros [k a2] [k' b2] [E H2]. cbn in E, H2. subst k'. split; [reflexivity|exact H2].
    - destruct l as [|y l]; [split; [reflexivity|exact H1]|]. apply IH, H1.
  Qed.
  Lemma fields_alike k : forall todo done a b, out P a b -> both wout (walk_fields V k done todo a) (walk_fields V k done todo b).
  Proof.
    induction todo as [|[nm c|nm l|nm x] todo IH]; intros done a b H; cbn [walk_fields].
    - split; [reflexivity|exact H].
    - eapply both_bind; [apply HV, H|]. intros [r a1] [r' b1] [E [F H1]]. cbn in E, F, H1. subst r'. cbv zeta. apply IH. split; [cbn; rewrite F; reflexivity|exact H1].
    - eapply both_bind; [apply list_alike, H|]. intros [r a1] [r' b1] [E [F H1]]. cbn in E, F, H1. subst r'. cbv zeta. apply IH. split; [cbn; rewrite F; reflexivity|exact H1].
    - apply IH, H.
  Qed.
  Lemma children_alike n a b : out P a b -> both wout (walk_children V n a) (walk_children V n b).
  Proof.
    intros H. destruct n as [i|v x|f args kws| | |k fs]; cbn [walk_children]; try (split; [reflexivity|exact H]).
    - eapply both_bind; [apply HV, H|]. intros [r a1] [r' b1] [E [F H1]]. cbn in E, F, H1. subst r'. cbv zeta. split; [reflexivity|]. split; [cbn; rewrite F; reflexivity|exact H1].
    - eapply both_bind; [apply HV, H|]. intros [r a1] [r' b1] [E [F H1]]. cbn in E, F, H1. subst r'. cbv zeta.
      eapply both_bind; [apply list_alike; split; [cbn; rewrite F; reflexivity|exact H1]|]. clear a1 b1 F H1. intros [l a1] [l' b1] [E [F H1]]. cbn in E, F, H1. subst l'.
      eapply both_bind; [apply list_alike; split; [cbn; rewrite F; reflexivity|exact H1]|]. clear a1 b1 F H1. intros [m a1] [m' b1] [E [F H1]]. cbn in E, F, H1. subst m'.
      split; [reflexivity|]. split; [cbn; rewrite F; reflexivity|exact H1].
    - apply fields_alike, H.
  Qed.
End Children.
Variable pre : node -> list frame -> S -> res (bool * S).
Variable again : node -> list frame -> S -> bool.
Variable post : node -> list frame -> S -> res (reply * S).
Hypothesis Hpre : forall n st s s', P s s' -> both (out P) (pre n st s) (pre n st s').
Hypothesis Hagain : forall n st s s', P s s' -> again n st s = again n st s'.
Hypothesis Hpost : forall n st s s', P s s' -> both (out P) (post n st s) (post n st s').
Theorem walk_alike d : forall n p a b, out P a b -> both wout (walk pre again post d n p a) (walk pre again post d n p b).
Proof.
  induction d as [|d IH]; intros n p [st s] [st' s'] [E H]; cbn in E, H; subst st'; cbn [walk]; [reflexivity|]. cbv zeta. cbn [fst snd].
  eapply both_bind; [apply Hpre, H|]. clear s s' H. intros [go s] [go' s'] [E H]. cbn in E, H. subst go'.
  apply (both_bind wout).
  { destruct go; [apply children_alike; [exact IH|]|]; (split; [reflexivity|]); [exact H|split; [reflexivity|exact H]]. }
  clear st s s' H. intros [n1 [st s]] [n1' [st' s']] [E [F H]]. cbn in E, F, H. subst n1' st'. cbn [fst snd].
  apply (both_bind wout).
  { rewrite (Hagain n1 st s s' H). destruct (again n1 st s'); [apply children_alike; [exact IH|]|]; (split; [reflexivity|]); [exact H|split; [reflexivity|exact H]]. }
  clear s s' H. intros [n2 [st2 s]] [n2' [st' s']] [E [F H]]. cbn in E, F, H. subst n2' st'. cbn [fst snd].
  eapply both_bind; [apply Hpost, H|]. clear s s' H. intros [r s] [r' s'] [E H]. cbn in E, H. subst r'.
  split; [reflexivity|]. split; [reflexivity|exact H].
Qed.
End Walks.

(** ** The second pass *)
Section Basic.
Context {M : Type}.
Variable e : benv M.
Variable R : M -> M -> Prop.
Hypothesis Rapi : forall m st w w', R w w' -> both (out R) (api_of e m st w) (api_of e m st w').
Hypothesis Rattr : forall m n st w w', R w w' -> both (out R) (attr_nodes e m n st w) (attr_nodes e m n st w').
Hypothesis Rcall : forall m a k st w w', R w w' -> both (out R) (call_nodes e m a k st w) (call_nodes e m a k st w').
Hypothesis Rclass : forall m f a k st w w', R w w' -> both (out R) (class_nodes e m f a k st w) (class_nodes e m f a k st w').
(** The counters and the tables of the reports are left out. *)
Definition alike (s s' : bst M) : Prop := scopes s = scopes s' /\ records s = records s' /\ R (shared s) (shared s').
Definition ok {A} (x y : res (A * bst M)) : Prop := both (out alike) x y.
Lemma alike_with s s' w w' : alike s s' -> R w w' -> alike (with_shared s w) (with_shared s' w').
Proof. intros (A & B & _) H. split; [exact A|]. split; [exact B|exact H]. Qed.
Lemma alike_shared s s' : alike s s' -> R (shared s) (shared s'). Proof. intros (_ & _ & H). exact H. Qed.
Lemma alike_record p l s s' : alike s s' -> alike (record p l s) (record p l s').
Proof. intros (A & B & C). destruct l; cbn [record]; [split; auto|]. rewrite B. split; [exact A|]. split; [reflexivity|exact C]. Qed.
Lemma alike_note a p s s' : alike s s' -> alike (note_paddle a p s) (note_paddle a p s').
Proof. intros (A & B & C). unfold note_paddle. destruct (dget _ _ (all_apis s)) as [[? ?]|], (dget _ _ (all_apis s')) as [[? ?]|]; split; auto. Qed.
Lemma insert_alike l st s s' : alike s s' -> ok (insert_multi_node e l st s) (insert_multi_node e l st s').
Proof.
  intros H. unfold insert_multi_node. cbv zeta. pose proof (alike_record (root_path, "body", 0) (filter (fun n => is_import n || mentions_sys_path e n) l) _ _ H) as K.
  destruct (filter _ l) as [|x r] eqn:E in |- *.
  - split; [reflexivity|exact K].
  - apply both_same. intros p. destruct (mem_str _ _); [split; [reflexivity|exact K]|]. rewrite (proj1 K). apply both_same. intros at_.
    split; [reflexivity|]. apply alike_record, K.
Qed.
Lemma ask_alike m st s s' : alike s s' -> ok (ask_api e m st s) (ask_api e m st s').
Proof.
  intros H. unfold ask_api. eapply both_bind; [apply Rapi, alike_shared, H|]. intros [[p l] w] [[p' l'] w'] [E F]. cbn in E, F. injection E as <- <-.
  eapply both_bind; [apply insert_alike, alike_with; eassumption|]. intros [b t] [b' t'] [_ G]. split; [reflexivity|exact G].
Qed.
Lemma ask_note_alike a m st s s' : alike s s' -> both alike (ask_and_note e a m st s) (ask_and_note e a m st s').
Proof.
  intros H. unfold ask_and_note. eapply both_bind; [apply ask_alike, H|]. intros [p t] [p' t'] [E G]. cbn in E, G. subst p'.
  destruct (truthy p); [|apply alike_note, G].
  eapply both_bind; [apply ask_alike, G|]. intros [q v] [q' v'] [E K]. cbn in E, K. subst q'. apply alike_note, K.
Qed.
Lemma annotate_alike k st s s' : alike s s' -> both alike (annotate k st s) (annotate k st s').
Proof.
  intros H. unfold annotate. rewrite (proj1 H). apply both_same. intros at_. apply (alike_record at_ [annotation k] _ _ H).
Qed.
Ltac plain := split; [reflexivity|cbn [snd]; solve [assumption | apply alike_note; assumption]].
Ltac give := (split; [reflexivity|]); cbn [snd]; match goal with H : alike _ _ |- _ => exact H end.
Lemma rest_alike n api origin st s s' : alike s s' -> ok (attribute_rest e n api origin st s) (attribute_rest e n api origin st s').
Proof.
  intros H. unfold attribute_rest. cbv zeta. destruct (3 <=? _)%nat; [|give].
  apply both_same. intros [m|]; [|give].
  eapply both_bind; [apply ask_alike, H|]. intros [p t] [p' t'] [E G]. cbn in E, G. subst p'. clear H.
  destruct p as [p|]; [|reflexivity]. destruct (String.eqb p "unchange"); [give|]. apply both_same. intros x. give.
Qed.
Lemma torch_attribute_alike n api origin st s s' : alike s s' -> ok (visit_torch_attribute e n api origin st s) (visit_torch_attribute e n api origin st s').
Proof.
  intros H0. unfold visit_torch_attribute. cbv zeta. assert (H : alike (recognise api s) (recognise api s')) by exact H0. clear H0.
  set (u := recognise api s) in *. set (u' := recognise api s') in *. clearbody u u'. clear s s'.
  apply both_same. intros [m|]; [|apply rest_alike, H].
  eapply both_bind; [apply ask_alike, H|]. intros [p t] [p' t'] [E G]. cbn in E, G. subst p'. clear u u' H.
  destruct p as [p|]; [|apply rest_alike, G].
  destruct (String.eqb p "delete").
  { apply both_same. intros b. apply both_same. intros d. destruct b; [give|]. destruct (d && _); [give|apply rest_alike, G]. }
  destruct (String.eqb p "misidentify"); [give|]. destruct (String.eqb p "unchange"); [give|].
  destruct (String.eqb p ""); [apply rest_alike, G|]. apply both_same. intros x. split; [reflexivity|].
  exact (alike_note api p _ _ G).
Qed.
Lemma class_attribute_alike n api origin st s s' : alike s s' -> ok (trans_class_attribute e n api origin st s) (trans_class_attribute e n api origin st s').
Proof.
  intros H. unfold trans_class_attribute. cbv zeta.
  assert (K : forall s s', alike s s' -> ok (let* s := annotate api st s in Ok (Reply (VNode n), s)) (let* s := annotate api st s' in Ok (Reply (VNode n), s))).
  { intros t t' G. eapply both_bind; [apply annotate_alike, G|]. intros x y X. split; [reflexivity|exact X]. }
  apply both_same. intros [m|]; [|apply K, H].
  eapply both_bind; [apply ask_note_alike, H|]. clear s s' H. intros s s' H.
  eapply both_bind; [apply Rattr, alike_shared, H|]. intros [[a l] w] [[a' l'] w'] [E F]. cbn in E, F. injection E as <- <-.
  eapply both_bind; [apply insert_alike, alike_with; eassumption|]. clear s s' H. intros [b s] [b' s'] [_ H]. cbn in H. clear b b'.
  destruct a as [| | |[|x r]|]; [|give|give|apply K, H| |apply K, H].
  - apply both_same. intros [|]; [give|apply K, H].
  - destruct (mem_str _ _); [|apply K, H]. eapply both_bind; [apply insert_alike, H|]. clear s s' H. intros [b s] [b' s'] [E H]. cbn in E, H. subst b'.
    destruct b; [give|apply K, H].
Qed.
Lemma finish_attribute_alike n st s s' : alike s s' -> ok (finish_attribute e n st s) (finish_attribute e n st s').
Proof.
  intros H. unfold finish_attribute. apply both_same. intros p. destruct (_ && _); [give|]. cbv zeta. apply both_same. intros full.
  destruct (start_with_torch e full); [apply torch_attribute_alike, H|]. destruct (contains _ _); [give|]. destruct (find _ _) as [api|]; [|give].
  apply class_attribute_alike. exact H.
Qed.
Lemma torch_call_alike f args kws api origin st s s' : alike s s' -> ok (visit_torch_call e f args kws api origin st s) (visit_torch_call e f args kws api origin st s').
Proof.
  intros H0. unfold visit_torch_call. cbv zeta. assert (H : alike (recognise api s) (recognise api s')) by exact H0. clear H0.
  set (u := recognise api s) in *. set (u' := recognise api s') in *. clearbody u u'. clear s s'.
  apply both_same. intros [m|]; [|give].
  eapply both_bind; [apply ask_note_alike, H|]. clear u u' H. intros s s' H.
  eapply both_bind; [apply Rcall, alike_shared, H|]. intros [[[a kept] l] w] [[[a' kept'] l'] w'] [E F]. cbn in E, F. injection E as <- <- <-.
  eapply both_bind; [apply insert_alike, alike_with; eassumption|]. clear s s' H. intros [b s] [b' s'] [_ H]. cbn in H. clear b b'.
  destruct a as [| | |[|x r]|]; [|give|give|give| |give].
  - apply both_same. intros [|]; give.
  - destruct (mem_str _ _); [|give]. eapply both_bind; [apply insert_alike, H|]. clear s s' H. intros [b s] [b' s'] [E H]. cbn in E, H. subst b'.
    destruct b; give.
Qed.
Lemma class_method_alike f args kws api origin st s s' : alike s s' -> ok (trans_class_method e f args kws api origin st s) (trans_class_method e f args kws api origin st s').
Proof.
  intros H. unfold trans_class_method. cbv zeta.
  assert (K : forall a k s s', alike s s' ->
    ok (let* s := annotate ("*" ++ method_suffix api) st s in Ok (Reply (VNode (Call f a k)), s))
       (let* s := annotate ("*" ++ method_suffix api) st s' in Ok (Reply (VNode (Call f a k)), s))).
  { intros a k t t' G. eapply both_bind; [apply annotate_alike, G|]. intros x y X. split; [reflexivity|exact X]. }
  apply both_same. intros [m|]; [|apply K, H].
  eapply both_bind; [apply ask_note_alike, H|]. clear s s' H. intros s s' H.
  eapply both_bind; [apply Rclass, alike_shared, H|]. intros [[[a kept] l] w] [[[a' kept'] l'] w'] [E F]. cbn in E, F. injection E as <- <- <-.
  eapply both_bind; [apply insert_alike, alike_with; eassumption|]. clear s s' H. intros [b s] [b' s'] [_ H]. cbn in H. clear b b'.
  destruct a as [| | |[|x r]|]; [|give|give|apply K, H| |apply K, H].
  - apply both_same. intros [|]; [give|apply K, H].
  - destruct (mem_str _ _); [|apply K, H]. eapply both_bind; [apply insert_alike, H|]. clear s s' H. intros [b s] [b' s'] [E H]. cbn in E, H. subst b'.
    destruct b; [give|apply K, H].
Qed.
Lemma finish_call_alike f args kws st s s' : alike s s' -> ok (finish_call e f args kws st s) (finish_call e f args kws st s').
Proof.
  intros H. unfold finish_call. cbv zeta. apply both_same. intros full. destruct (_ || _); [apply torch_call_alike, H|].
  destruct (contains _ _); [give|]. destruct (find _ _) as [api|]; [|give]. apply class_method_alike. exact H.
Qed.
Lemma scope_alike s s' l : alike s s' -> alike (with_scopes s (l :: scopes s)) (with_scopes s' (l :: scopes s')).
Proof. intros (A & B & C). split; [cbn; rewrite A; reflexivity|]. split; [exact B|exact C]. Qed.
Lemma unscope_alike s s' : alike s s' -> alike (with_scopes s (tl (scopes s))) (with_scopes s' (tl (scopes s'))).
Proof. intros (A & B & C). split; [cbn; rewrite A; reflexivity|]. split; [exact B|exact C]. Qed.
Lemma basic_post_alike n st s s' : alike s s' -> ok (basic_post e n st s) (basic_post e n st s').
Proof.
  intros H. destruct n as [i|v a|f args kws|x|x y z|k fs]; cbn [basic_post]; [| | |give|give|].
  - unfold visit_name. apply both_same. intros p. destruct p as [| |[g| | | | |] a b| | |]; try give.
    destruct (mem_str _ _); [|give]. destruct (dget _ _ _); give.
  - apply finish_attribute_alike, H.
  - apply finish_call_alike, H.
  - destruct (mem_str _ _); [reflexivity|]. destruct (String.eqb _ _); [give|]. destruct (mem_str _ _); [|give].
    rewrite (proj1 (proj2 H)). split; [reflexivity|apply unscope_alike, H].
Qed.
Theorem transform_alike limit root s s' : alike s s' -> ok (basic_transform e limit root s) (basic_transform e limit root s').
Proof.
  intros H. unfold basic_transform, basic_walk.
  eapply both_bind; [apply (walk_alike alike); [| | |split; [reflexivity|exact H]]|].
  - intros n st t t' G. unfold basic_pre. split; [reflexivity|]. destruct (mem_str _ _); [apply scope_alike, G|exact G].
  - reflexivity.
  - intros n st t t' G. apply basic_post_alike, G.
  - intros [r [st t]] [r' [st' t']] [E [_ G]]. cbn in E, G. subst r'. destruct r as [[x| |]|]; try reflexivity. split; [reflexivity|exact G].
Qed.
End Basic.

(** ** The shipped matchers *)
Section Shipped.
Variable t : tools.
Definition same_names (w w' : world) : Prop := name_counters w = name_counters w' /\ Shipped.cpp_extensions w = Shipped.cpp_extensions w'.
Notation ok := (both (out same_names)).
Lemma enable_same b cls w w' : same_names w w' -> out same_names (enable_if t b cls w) (enable_if t b cls w').
Proof.
  intros H. unfold enable_if, enable. destruct b; [|split; [reflexivity|exact H]]. destruct (_ && _); (split; [reflexivity|]); exact H.
Qed.
Lemma as_nodes_alike code l w w' : same_names w w' -> ok (as_nodes t code l w) (as_nodes t code l w').
Proof. intros H. apply both_same. intros ns. split; [reflexivity|exact H]. Qed.
Lemma from_code_alike c w w' : same_names w w' -> ok (from_code t c w) (from_code t c w').
Proof. intros H. destruct c; [apply as_nodes_alike, H|reflexivity]. Qed.
Lemma answer_alike cls a w w' : same_names w w' -> ok (from_answer t cls a w) (from_answer t cls a w').
Proof.
  intros H. destruct a as [h s| | |h|x]; cbn [from_answer]; try (split; [reflexivity|exact H]); [| |reflexivity];
    pose proof (enable_same h cls w w' H) as K; destruct (enable_if t h cls w) as [l v], (enable_if t h cls w') as [l' v']; destruct K as [E K]; cbn in E, K; subst l'.
  - apply as_nodes_alike, K.
  - split; [reflexivity|exact K].
Qed.
Lemma generator_alike m strict b recv d w w' : same_names w w' -> ok (from_generator t m strict b recv d w) (from_generator t m strict b recv d w').
Proof.
  intros H. unfold from_generator. cbv zeta. rewrite (proj1 H). destruct (run_generator _ b d _) as [[[g i] h]|x]; [|reflexivity].
  assert (K0 : same_names (MkWorld i (helpers w) (Shipped.cpp_extensions w)) (MkWorld i (helpers w') (Shipped.cpp_extensions w'))) by (split; [reflexivity|exact (proj2 H)]).
  pose proof (enable_same h (m_class m) _ _ K0) as K. destruct (enable_if t h _ _) as [l v]. destruct (enable_if t h _ _) as [l' v']. destruct K as [E K]; cbn in E, K; subst l'.
  destruct g; [apply as_nodes_alike, K| | |]; (split; [reflexivity|exact K]).
Qed.
Lemma parsed_alike p w w' k k' : same_names w w' -> (forall d, ok (k d) (k' d)) -> ok (from_parsed p w k) (from_parsed p w' k').
Proof. intros H K. destruct p; cbn [from_parsed]; [apply K| | |reflexivity]; (split; [reflexivity|exact H]). Qed.
Lemma special_alike m recv name args kws w w' : same_names w w' ->
  match special_nodes t m recv name args kws w, special_nodes t m recv name args kws w' with
  | Some x, Some y => ok x y
  | None, None => True
  | _, _ => False
  end.
Proof.
  intros H. unfold special_nodes. cbv zeta.
  repeat match goal with |- match (if ?b then _ else _) with _ => _ end => destruct b; [try (apply answer_alike, H)|] end.
  - rewrite (proj2 H). destruct (Special.setup_nodes _ _ _ _) as [x exts]. apply answer_alike. split; [exact (proj1 H)|reflexivity].
  - apply parsed_alike; [exact H|]. intros d. apply generator_alike, H.
  - destruct (_ <? _)%nat; [split; [reflexivity|exact H]|]. apply parsed_alike; [exact H|]. intros d. apply generator_alike, H.
  - exact I.
Qed.
Lemma base_alike m recv args kws w w' : same_names w w' -> ok (base_nodes t m recv args kws w) (base_nodes t m recv args kws w').
Proof.
  intros H. unfold base_nodes. apply parsed_alike; [exact H|]. intros d. destruct (dget _ _ _) as [[st b]|]; [apply generator_alike, H|reflexivity].
Qed.
(** The result stands before the state here, and the argument lists after it. *)
Definition kept_out (x y : result * (list node * list node)) : Prop := out same_names (fst x) (fst y) /\ snd x = snd y.
Lemma keep_alike x y (k : list node * list node) : ok x y -> both kept_out (let* r := x in Ok (r, k)) (let* r := y in Ok (r, k)).
Proof. intros H. eapply both_bind; [exact H|]. intros a b K. split; [exact K|reflexivity]. Qed.
Lemma nodes_alike m recv name args kws w w' : same_names w w' -> both kept_out (nodes_of t m recv name args kws w) (nodes_of t m recv name args kws w').
Proof.
  intros H. unfold nodes_of. cbv zeta. destruct (printed_again _) as [f|]; [apply keep_alike, from_code_alike, H|].
  pose proof (special_alike m recv name args kws w w' H) as K.
  destruct (special_nodes t m recv name args kws w) as [x|], (special_nodes t m recv name args kws w') as [y|]; try contradiction; apply keep_alike; [exact K|apply base_alike, H].
Qed.
Lemma order_alike x y : both kept_out x y -> both (out same_names) (in_order x) (in_order y).
Proof.
  intros H. unfold in_order. eapply both_bind; [exact H|]. intros [[[a l] w] k] [[[a' l'] w'] k'] [[E F] G]. cbn in E, F, G. injection E as <- <-. subst k'.
  split; [reflexivity|exact F].
Qed.
Lemma shipped_api_alike m st w w' : same_names w w' -> both (out same_names) (shipped_api t m st w) (shipped_api t m st w').
Proof.
  intros H. unfold shipped_api. apply both_same. intros p. pose proof (enable_same (name_enables m) (m_class m) w w' H) as K.
  destruct (enable_if t _ _ w) as [l v], (enable_if t _ _ w') as [l' v']. destruct K as [E K]. cbn in E, K. subst l'. split; [reflexivity|exact K].
Qed.
Lemma shipped_attribute_alike m n st w w' : same_names w w' -> both (out same_names) (shipped_attribute t m n st w) (shipped_attribute t m n st w').
Proof.
  intros H. unfold shipped_attribute. destruct (mem_str _ _); [split; [reflexivity|exact H]|]. apply both_same. intros p.
  pose proof (enable_same (name_enables m) (m_class m) w w' H) as K.
  destruct (enable_if t _ _ w) as [l v], (enable_if t _ _ w') as [l' v']. destruct K as [E K]. cbn in E, K. subst l'. cbv zeta.
  destruct (String.eqb _ _); [|apply as_nodes_alike, K]. destruct (Special.attribute_to_call _); try (split; [reflexivity|exact K]). apply as_nodes_alike, K.
Qed.
Lemma shipped_call_alike m args kws st w w' : same_names w w' -> both (out same_names) (shipped_call t m args kws st w) (shipped_call t m args kws st w').
Proof. intros H. unfold shipped_call. apply both_same. intros p. apply order_alike, nodes_alike, H. Qed.
Lemma shipped_method_alike m f args kws st w w' : same_names w w' -> both (out same_names) (shipped_method t m f args kws st w) (shipped_method t m f args kws st w').
Proof.
  intros H. unfold shipped_method. cbv zeta.
  destruct (String.eqb _ "TensorRenameMatcher"); [apply order_alike, keep_alike, answer_alike, H|].
  destruct (String.eqb _ "ChangePrefixMatcher").
  { apply both_same. intros name. apply order_alike, keep_alike, from_code_alike, H. }
  apply both_same. intros p.
  destruct (String.eqb _ "TensorMaxMatcher"); [apply order_alike, keep_alike, answer_alike, H|].
  destruct (String.eqb _ "TensorMinMatcher"); [apply order_alike, keep_alike, answer_alike, H|].
  destruct (String.eqb _ "TensorStftMatcher"); [apply order_alike, keep_alike, answer_alike, H|].
  apply order_alike, nodes_alike, H.
Qed.
Theorem shipped_transform_alike imps limit root s s' : alike same_names s s' ->
  both (out (alike same_names)) (basic_transform (shipped_env t imps) limit root s) (basic_transform (shipped_env t imps) limit root s').
Proof.
  apply transform_alike; cbn [api_of attr_nodes call_nodes class_nodes shipped_env].
  - apply shipped_api_alike.
  - apply shipped_attribute_alike.
  - apply shipped_call_alike.
  - apply shipped_method_alike.
Qed.
End Shipped.

(** ** The passes for C++ extensions *)
Definition calike : bst_c -> bst_c -> Prop := alike (@eq cst).
Lemma close_alike n st s s' : calike s s' -> both (out calike) (close_scope n st s) (close_scope n st s').
Proof.
  intros H. unfold close_scope. destruct (mem_str _ _); [|split; [reflexivity|exact H]].
  rewrite (proj1 (proj2 H)). split; [reflexivity|]. apply unscope_alike, H.
Qed.
Lemma uses_alike ext st : forall s s', calike s s' -> calike (uses_in_classes ext st s) (uses_in_classes ext st s').
Proof.
  unfold uses_in_classes. induction st as [|f st IH]; intros s s' H; cbn [fold_left]; [exact H|]. apply IH.
  destruct (String.eqb _ _); [|exact H]. generalize (list_of "bases" (e_node f)) as l. intros l. revert s s' H.
  induction l as [|b l IL]; intros s s' H; cbn [fold_left]; [exact H|]. apply IL. destruct (String.eqb _ _); [|exact H].
  destruct H as (A & B & C). split; [exact A|]. split; [exact B|]. cbn. rewrite C. reflexivity.
Qed.
Lemma fold_alike {A} (step : bst_c -> A -> bst_c) l : (forall x s s', calike s s' -> calike (step s x) (step s' x)) ->
  forall s s', calike s s' -> calike (fold_left step l s) (fold_left step l s').
Proof. intros K. induction l as [|x l IH]; intros s s' H; cbn [fold_left]; [exact H|]. apply IH, K, H. Qed.
Lemma pre_post_alike n st s s' : calike s s' -> both (out calike) (pre_custom_post n st s) (pre_custom_post n st s').
Proof.
  intros H. pose proof H as (A & B & C). unfold pre_custom_post. cbv zeta.
  repeat match goal with |- both _ (match ?x with _ => _ end) (match ?x with _ => _ end) => destruct x end;
    try (apply close_alike, H); try (split; [reflexivity|exact H]); try reflexivity.
  all: try (rewrite C; destruct (split_imports _ _) as [kept c]; split; [reflexivity|]; apply (alike_with (@eq cst)); [exact H|reflexivity]).
  all: try (rewrite C; split; [reflexivity|]; apply (alike_with (@eq cst)); [exact H|reflexivity]).
  all: split; [reflexivity|]; cbn [snd].
  all: set (F := fold_left _ (ext_imports (shared s)) s); set (F' := fold_left _ (ext_imports (shared s')) s').
  all: assert (G : calike F F') by (unfold F, F'; rewrite C; apply fold_alike; [|exact H]; intros x u u' U; destruct (String.eqb _ _); [apply uses_alike, U|exact U]).
  all: clearbody F F'; rewrite (proj2 (proj2 G)); apply fold_alike; [|exact G]; intros x u u' U; destruct (String.eqb _ _); [apply uses_alike, U|exact U].
Qed.
Lemma custom_attribute_alike n st s s' : calike s s' -> both (out calike) (custom_attribute n st s) (custom_attribute n st s').
Proof.
  intros H. pose proof H as (A & B & C). unfold custom_attribute. rewrite C. destruct (find _ _) as [[name ext]|]; [|split; [reflexivity|exact H]].
  apply both_same. intros x. cbv zeta. cbn [scopes unsupport]. rewrite A. apply both_same. intros p. split; [reflexivity|]. apply (alike_record (@eq cst)).
  split; [reflexivity|]. split; [exact B|reflexivity].
Qed.
Lemma custom_post_alike n st s s' : calike s s' -> both (out calike) (custom_post n st s) (custom_post n st s').
Proof.
  intros H. pose proof H as (A & B & C). unfold custom_post. cbv zeta.
  repeat match goal with |- both _ (match ?x with _ => _ end) (match ?x with _ => _ end) => destruct x end;
    try (apply close_alike, H); try (split; [reflexivity|exact H]); try (apply custom_attribute_alike, H).
  all: try (rewrite C; destruct (custom_from _ _) as [[kept found] c]; split; [reflexivity|]; apply (alike_record (@eq cst)), (alike_with (@eq cst)); [exact H|reflexivity]).
  all: rewrite C; split; [reflexivity|exact H].
Qed.
Lemma run_custom_alike post limit root s s' : (forall n st s s', calike s s' -> both (out calike) (post n st s) (post n st s')) ->
  calike s s' -> both (out calike) (run_custom post limit root s) (run_custom post limit root s').
Proof.
  intros K H. unfold run_custom. eapply both_bind; [apply (walk_alike calike); [| | |split; [reflexivity|exact H]]|].
  - intros n st u u' G. unfold custom_pre. split; [reflexivity|]. destruct (mem_str _ _); [apply scope_alike, G|exact G].
  - reflexivity.
  - exact K.
  - intros [r [st u]] [r' [st' u']] [E [_ G]]. cbn in E, G. subst r'. destruct r as [[x| |]|]; try reflexivity. split; [reflexivity|exact G].
Qed.

(** ** A file *)
Section File.
Variable u : setup world.
Hypothesis Uenv : forall file i, exists t, basic_env u file i = shipped_env t i.
Hypothesis Uext : Converter.cpp_extensions u = Shipped.cpp_extensions.
(** The imports of the file itself agree after its first pass. *)
Definition same_after (file : string) (c c' : conv world) : Prop :=
  same_future c c' /\ dget String.eqb file (c_imports c) = dget String.eqb file (c_imports c').
Lemma node_alike ex file root c c' : same_future c c' -> both (out (same_after file)) (transfer_node u ex file root c) (transfer_node u ex file root c').
Proof.
  intros (A & B & C). unfold transfer_node. apply both_same. intros [r i]. cbv zeta.
  assert (I : forall d d' : dict string ist, dget String.eqb file (dset String.eqb file i d) = dget String.eqb file (dset String.eqb file i d')).
  { intros d d'. rewrite !(dget_set_same _ String.eqb_spec). reflexivity. }
  destruct (only_complete u). { split; [reflexivity|]. split; [split; [exact A|split; [exact B|exact C]]|apply I]. }
  destruct (Uenv file i) as [t ->].
  eapply both_bind; [apply shipped_transform_alike; split; [reflexivity|split; [reflexivity|split; [exact A|exact B]]]|].
  intros [r2 s2] [r2' s2'] [E (_ & _ & N & X)]. cbn in E, N, X. subst r2'.
  eapply both_bind; [apply run_custom_alike; [apply pre_post_alike|]|].
  { split; [reflexivity|]. split; [reflexivity|]. cbn. unfold globals. cbn. rewrite Uext, X, C. reflexivity. }
  intros [r3 s3] [r3' s3'] [E (_ & _ & Y)]. cbn in E, Y. subst r3'.
  eapply both_bind; [apply run_custom_alike; [apply custom_post_alike|]|].
  { split; [reflexivity|]. split; [reflexivity|]. cbn. unfold globals. cbn. rewrite Uext, X, Y. reflexivity. }
  intros [r4 s4] [r4' s4'] [E _]. cbn in E. subst r4'. split; [reflexivity|]. split; [|apply I].
  split; [exact N|]. split; [exact X|]. cbn. rewrite Y. reflexivity.
Qed.
Theorem text_alike ex file code c c' : same_future c c' -> both (out same_future) (convert_text u ex file code c) (convert_text u ex file code c').
Proof.
  intros H. unfold convert_text, convert_python.
  destruct (endswith file ".py"); [|destruct (endswith _ _); [destruct (TextFile.read_text code); [|reflexivity]|]; split; auto].
  apply both_same. intros source.
  apply both_same. intros root. eapply both_bind; [apply node_alike, H|]. intros [r d] [r' d'] [E [F G]]. cbn in E, F, G. subst r'.
  apply both_same. intros text. cbv zeta. destruct (only_complete u); [split; [reflexivity|exact F]|]. rewrite G.
  destruct (Marker.mark_unsupport _ _ _ _); [split; [reflexivity|exact F]|reflexivity].
Qed.
End File.
