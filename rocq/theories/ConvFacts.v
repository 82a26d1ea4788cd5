(** Proofs for C68. *)
From Coq Require Import ZArith.
From Verif Require Import PyStr PyDict TablesData Lookup Ast AstFacts ImportPass ImportSpec ImportFacts Walk WalkFacts
  BasicPass BasicSpec BasicFacts CustomPass Converter ConverterFacts TraversalFacts QuietSpec QuietFacts ConvSpec.
Open Scope string_scope.
Opaque api_mapping attribute_mapping alias_mapping wildcard_mapping matcher_classes torch_package_mapping.
Local Opaque record.

(** ** Insertions *)
Lemma convs_insert_at l x i : forall l', convs true l l' -> convs true l (Scope.list_insert i x l').
Proof.
  revert l. induction i as [|i IH]; intros l l' C; [constructor; exact C|].
  inversion C as [b|b y y' m m' Cy Cm|y m m' Cm]; subst; cbn [Scope.list_insert].
  - apply convs_insert. constructor.
  - apply convs_cons; [exact Cy|]. apply IH, Cm.
  - apply convs_insert. apply IH, Cm.
Qed.
Lemma convs_insert_field l d : forall l', convs true l l' -> convs true l (Scope.insert_field d l').
Proof.
  unfold Scope.insert_field. induction (Scope.sort_desc d) as [|[i new] s IH]; intros l' C; [exact C|]. cbn [fold_left].
  apply IH. cbn [fst snd]. clear IH. revert l' C. induction (rev new) as [|x r IH]; intros l' C; [exact C|]. cbn [fold_left].
  apply IH, convs_insert_at, C.
Qed.
Lemma convfs_insert path d fs fs' : convfs true fs fs' ->
  convfs true fs (map (fun f => match f with Many nm l => Many nm (Scope.insert_field (recorded_at path nm d) l) | f => f end) fs').
Proof.
  intros C. remember true as b eqn:B. revert B. induction C as [b|b nm c c' fs fs' Cc C IH|b nm l l' fs fs' Cl C IH|b nm x fs fs' C IH]; intros ->; cbn [map]; constructor; auto.
  apply convs_insert_field, Cl.
Qed.
Lemma convs_nth l l' i : convs false l l' -> nth_error l i <> None -> nth_error l' i <> None.
Proof.
  intros C. remember false as b eqn:B. revert B i. induction C as [b|b x x' l l' Cx C IH|x l l' C IH]; intros B i N; try discriminate B.
  - destruct i; exact N.
  - destruct i as [|i]; [discriminate|]. apply IH; assumption.
Qed.
Lemma convfs_child fs fs' p c : convfs false fs fs' -> field_child fs p = Some c -> exists c', field_child fs' p = Some c'.
Proof.
  intros C. remember false as b eqn:B. revert B.
  induction C as [b|b nm c1 c' fs fs' Cc C IH|b nm l l' fs fs' Cl C IH|b nm x fs fs' C IH]; intros B; subst; cbn [field_child field_name];
    try discriminate; destruct (String.eqb _ _); auto; try discriminate.
  - eauto.
  - intros E. assert (N := convs_nth l l' (p_index p) Cl). rewrite E in N. destruct (nth_error l' (p_index p)); eauto.
    exfalso. apply N; congruence.
Qed.

(** ** Visitors *)
Section Basic.
  Context {M : Type}.
  Variable e : benv M.
  Hypothesis D : deletes_nothing e.
  Definition some_node (r : reply) : Prop := exists n, r = Reply (VNode n).
  Lemma matcher_found l o m : matcher_of l o = Ok (Some m) -> exists a c r, l = LMatcher a c r /\ m = MkMatcher a c r o.
  Proof. destruct l; cbn [matcher_of]; try discriminate. intros [= <-]. eauto. Qed.
  Lemma ask_not_delete name a c r o st s p s' : attribute_lookup name = LMatcher a c r -> o <> "delete" ->
    ask_api e (MkMatcher a c r o) st s = Ok (p, s') -> p <> Some "delete".
  Proof.
    unfold ask_api. intros L N H ->. split_bind H. destruct a0 as [[p l] w]. split_bind H. destruct a0. injection H as -> _.
    destruct D as [D1 _]. exact (D1 _ _ _ _ _ _ _ _ _ L N E).
  Qed.
  Lemma dot_not_delete v x : v ++ "." ++ x <> "delete".
  Proof.
    intros E. assert (C : mem_char "." (v ++ "." ++ x) = true); [clear E|rewrite E in C; discriminate C].
    induction v as [|c v IH]; [reflexivity|]. cbn [append mem_char]. destruct (Ascii.eqb _ _); [reflexivity|exact IH].
  Qed.
  Lemma origin_not_delete v x : get_full_attr_strict e (Attribute v x) <> "delete".
  Proof.
    unfold get_full_attr_strict. destruct (torch_packages _); [discriminate|]. cbn [full_attr_strict].
    destruct (mem_str _ _); [discriminate|]. apply dot_not_delete.
  Qed.
  Ltac finish H := injection H as <- _; eexists; reflexivity.
  Lemma attribute_rest_node n api o st s r s' : attribute_rest e n api o st s = Ok (r, s') -> some_node r.
  Proof. unfold attribute_rest. cbv zeta. intros H. rip H; finish H. Qed.
  Lemma attribute_node v x st s r s' : finish_attribute e (Attribute v x) st s = Ok (r, s') -> some_node r.
  Proof.
    unfold finish_attribute. cbv zeta. intros H. split_bind H. destruct (_ && _)%bool; [finish H|]. split_bind H.
    destruct (start_with_torch e a0).
    - unfold visit_torch_attribute in H. cbv zeta in H. split_bind H. destruct a1 as [m|]; [|eapply attribute_rest_node; exact H].
      split_bind H. destruct a1 as [[p|] s1]; [|eapply attribute_rest_node; exact H].
      apply matcher_found in E1 as (a1 & c1 & r1 & L1 & ->).
      destruct (String.eqb_spec p "delete") as [->|N]; [destruct (ask_not_delete _ _ _ _ _ _ _ _ _ L1 (origin_not_delete v x) E2 eq_refl)|].
      rip H; try (finish H); eapply attribute_rest_node; exact H.
    - rip H; try (finish H). unfold trans_class_attribute in H. cbv zeta in H. split_bind H. destruct a1 as [m|]; [|rip H; finish H].
      split_bind H. split_bind H. destruct a2 as [[an l] w]. split_bind H. destruct a2 as [? s2].
      destruct an; try (rip H; finish H). apply matcher_found in E3 as (a3 & c3 & r3 & L3 & ->). destruct D as [_ [D2 _]]. destruct (D2 _ _ _ _ _ _ _ _ _ _ L3 E5).
  Qed.
  Lemma call_node f a k st s r s' : finish_call e f a k st s = Ok (r, s') -> some_node r.
  Proof.
    unfold finish_call. cbv zeta. intros H. split_bind H. destruct (_ || _)%bool.
    - unfold visit_torch_call in H. cbv zeta in H. split_bind H. destruct a1 as [m|]; [|finish H].
      split_bind H. split_bind H. destruct a2 as [[[an kept] l] w]. split_bind H. destruct a2 as [? s2].
      destruct an; try (rip H; finish H). apply matcher_found in E0 as (a3 & c3 & r3 & L3 & ->). destruct D as [_ [_ [D2 _]]]. destruct (D2 _ _ _ _ _ _ _ _ _ _ _ _ L3 E2).
    - rip H; try (finish H). unfold trans_class_method in H. cbv zeta in H. split_bind H. destruct a1 as [m|]; [|rip H; finish H].
      split_bind H. split_bind H. destruct a2 as [[[an kept] l] w]. split_bind H. destruct a2 as [? s2].
      destruct an; try (rip H; finish H). apply matcher_found in E2 as (a3 & c3 & r3 & L3 & ->). destruct D as [_ [_ [_ D2]]]. destruct (D2 _ _ _ _ _ _ _ _ _ _ _ _ _ L3 E4).
  Qed.
  Lemma name_node i st (s : bst M) r s' : visit_name i st s = Ok (r, s') -> some_node r.
  Proof. unfold visit_name. intros H. rip H; finish H. Qed.

  (** ** Trees *)
  Definition fit (n : node) : Prop := forall k fs, In (Other k fs) (nodes n) -> k = "Expr" -> exists c, field_child fs (At "value" 0) = Some c.
  Lemma fit_child n c : fit n -> In c (children n) -> fit c.
  Proof. intros F Hc k fs H. apply F. eapply child_nodes; eassumption. Qed.
  Definition CP (n : node) (p : pos) (st : list frame) (u : bst M) (r : reply) (u' : bst M) : Prop :=
    fit n -> exists n', r = Reply (VNode n') /\ conv n n'.
  Lemma conv_list nm st b i l u l' u' : wl CP nm st i l u l' u' -> (forall x, In x l -> fit x) -> convs b l l'.
  Proof.
    induction 1 as [i u|i x l u v u1 rest u2 Hx Hl IH|i x u u1 Hx|i x y l u u1 rest u2 Hx Hl IH]; intros F.
    - constructor.
    - destruct (Hx (F x (or_introl eq_refl))) as (x' & [= ->] & C). cbn [spliced app]. constructor; [exact C|].
      apply IH. intros z Hz. apply F. right. exact Hz.
    - destruct (Hx (F x (or_introl eq_refl))) as (x' & [=] & C).
    - destruct (Hx (F x (or_introl eq_refl))) as (x' & [=] & C).
  Qed.
  Lemma conv_fields k p st b done todo u fs u' : wf CP k p st done todo u fs u' ->
    (forall x, In x (flat_map field_nodes todo) -> fit x) -> exists todo', fs = (done ++ todo')%list /\ convfs b todo todo'.
  Proof.
    induction 1 as [done u|done nm x todo u fs u' H IH|done nm c todo u r u1 fs u' Hc H IH|done nm l todo u l' u1 fs u' Hl H IH];
      intros F; cbn [flat_map field_nodes app] in F.
    - exists []. rewrite app_nil_r. split; [reflexivity|constructor].
    - destruct (IH F) as (t & -> & C). exists (Data nm x :: t). rewrite <- app_assoc. split; [reflexivity|constructor; exact C].
    - destruct (Hc (F c (or_introl eq_refl))) as (c' & -> & Cc). destruct IH as (t & -> & C); [intros y Hy; apply F; right; exact Hy|].
      exists (One nm c' :: t). cbn [value_of set_field]. rewrite <- app_assoc. split; [reflexivity|constructor; assumption].
    - destruct IH as (t & -> & C); [intros y Hy; apply F, in_or_app; right; exact Hy|].
      exists (Many nm l' :: t). rewrite <- app_assoc. split; [reflexivity|constructor; [|exact C]].
      eapply conv_list; [exact Hl|]. intros y Hy. apply F, in_or_app. left. exact Hy.
  Qed.
  (** What [generic_visit] does. *)
  Lemma conv_children p st n u n' u' : wc CP p st n u n' u' -> fit n ->
    match n with
    | Attribute _ a => exists v', n' = Attribute v' a
    | Call _ _ _ => exists f' a' k', n' = Call f' a' k'
    | Other k fs => exists fs', n' = Other k fs' /\ forall b, convfs b fs fs'
    | _ => n' = n
    end.
  Proof.
    intros W F. destruct W as [i u|l u|m l i u|v a u r u1 H|f a k u r u1 a' u2 k' u3 H Ha Hk|k fs u fs' u' H]; try reflexivity.
    - destruct H as (v' & -> & _); [eapply fit_child; [exact F|left; reflexivity]|]. eexists. reflexivity.
    - destruct H as (f' & -> & _); [eapply fit_child; [exact F|left; reflexivity]|]. eexists _, _, _. reflexivity.
    - exists fs'. split; [reflexivity|]. intros b. eapply conv_fields in H.
      + destruct H as (t & -> & C). exact C.
      + intros x Hx. eapply fit_child; [exact F|]. rewrite children_fields. exact Hx.
  Qed.
  Theorem walk_conv limit n p st s r st' s' : basic_walk e limit n p (st, s) = Ok (r, (st', s')) -> fit n ->
    exists n', r = Reply (VNode n') /\ conv n n'.
  Proof.
    intros E. apply (walk_sound CP basic_pre (basic_again e) (basic_post e)) in E as [_ E]; [exact E|].
    clear -D. intros n p st u go u1 n1 u2 n2 u3 r u4 E1 W1 W2 E2 F.
    unfold basic_pre in E1. injection E1 as E1 _. unfold basic_again in W2.
    destruct n as [i|v a|f a k|l|m l i|k fs].
    - subst go. apply conv_children in W1; [|exact F]. subst n1. destruct W2 as [-> _].
      apply name_node in E2 as [n' ->]. exists n'. split; [reflexivity|constructor].
    - assert (X : exists v1, n1 = Attribute v1 a /\ forall c, In c (nodes v1) -> True).
      { destruct go; [apply conv_children in W1; [|exact F]; destruct W1 as [v1 ->]|destruct W1 as [-> _]]; eauto. }
      destruct X as (v1 & -> & _).
      assert (Y : (exists n2', n2 = Attribute n2' a) \/ exists fs', n2 = Other "Attribute" fs').
      { destruct (looks_again e (Attribute v1 a)).
        - inversion W2; subst. destruct r0 as [[w| |]|]; cbn [value_of attr_with]; eauto.
        - destruct W2 as [-> _]. eauto. }
      destruct Y as [[v2 ->]|[fs' ->]].
      + apply attribute_node in E2 as [n' ->]. exists n'. split; [reflexivity|constructor].
      + discriminate E2.
    - subst go. apply conv_children in W1; [|exact F]. destruct W1 as (f' & a' & k' & ->). destruct W2 as [-> _].
      apply call_node in E2 as [n' ->]. exists n'. split; [reflexivity|constructor].
    - subst go. apply conv_children in W1; [|exact F]. subst n1. destruct W2 as [-> _]. injection E2 as <- _.
      eexists. split; [reflexivity|constructor].
    - subst go. apply conv_children in W1; [|exact F]. subst n1. destruct W2 as [-> _]. injection E2 as <- _.
      eexists. split; [reflexivity|constructor].
    - subst go. apply conv_children in W1; [|exact F]. destruct W1 as (fs' & -> & C). destruct W2 as [-> _].
      cbn [basic_post] in E2. destruct (mem_str k ["Attribute"; "Call"]); [discriminate|].
      destruct (String.eqb_spec k "Expr") as [->|N].
      + destruct (F "Expr" fs (self_in _) eq_refl) as [c Hc]. destruct (convfs_child _ _ _ _ (C false) Hc) as [c' Hc'].
        rewrite Hc' in E2. injection E2 as <- _. eexists. split; [reflexivity|]. constructor. apply C.
      + destruct (mem_str k scope_kinds) eqn:K; injection E2 as <- _; (eexists; split; [reflexivity|]).
        * cbn [insert_recorded]. constructor. rewrite K. apply convfs_insert, C.
        * constructor. apply C.
  Qed.
End Basic.
