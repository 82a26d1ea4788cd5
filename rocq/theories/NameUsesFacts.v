(** Proofs about names that are not called (C118). *)
From Coq Require Import Lia PeanoNat.
From Verif Require Import PyStr PyStrFacts PyDict PyDictFacts UtilsFile Args TablesData Lookup LookupFacts Ast Walk ImportPass BasicPass Placed
  Generate GenerateData RecogniseSpec EffectSpec EffectFacts Shipped ShippedSpec ShippedFacts ShippedCalls NameUses.
From Verif Require Import GenericSpec.
From Verif Require LookupSpec.
From Verif Require ShippedNames GenericSpec PropertiesRecognise.
Opaque api_mapping attribute_mapping alias_mapping wildcard_mapping matcher_classes torch_package_mapping generators.

Definition special_words : list string := [""; "delete"; "misidentify"; "unchange"].
Definition named_rows : list row := (api_mapping ++ attribute_mapping ++ wildcard_mapping)%list.
Definition name_ok (r : row) : bool :=
  match paddle_api (r_entry r) with
  | Some p => negb (mem_str p ["delete"; "misidentify"; "unchange"]) &&
      match r_matcher r with Some c => negb (String.eqb c "ChangeAPIMatcher") || get_paddle_api_returns (r_name r) c (r_entry r) | None => true end
  | None => true
  end.
Lemma names_ok : forallb name_ok named_rows = true.
Proof. vm_compute. reflexivity. Qed.
Lemma wildcard_unnamed : forallb (fun r => match paddle_api (r_entry r) with None => true | _ => false end) wildcard_mapping = true.
Proof. vm_compute. reflexivity. Qed.
Definition row_of (a c : string) (r : row) : Prop := r_matcher r = Some c /\ In r named_rows /\ (r_name r = a \/ In r wildcard_mapping).
Lemma api_row api a c r : get_api_matcher api = LMatcher a c r -> row_of a c r.
Proof.
  intros L. apply get_matcher_found in L as (_ & M & _ & [[I N]|[I _]]); (split; [exact M|]); unfold named_rows; (split; [|auto]); apply in_or_app; [auto|].
  right. apply in_or_app. right. exact I.
Qed.
Lemma lookup_row api a c r : attribute_lookup api = LMatcher a c r -> row_of a c r.
Proof.
  intros L. apply lookup_rows in L as (M & [[I N]|[I _]]); (split; [exact M|]); unfold named_rows; (split; [|auto]).
  - unfold LookupSpec.shipped in I. apply in_app_or in I as [I|I]; apply in_or_app; [auto|right; apply in_or_app; auto].
  - apply in_or_app. right. apply in_or_app. auto.
Qed.
Lemma dotted_special (x y : string) : In (x ++ String "."%char y) special_words -> False.
Proof.
  intros H. assert (D : forall u v, mem_char "."%char (u ++ String "."%char v) = true).
  { clear. induction u as [|c u IH]; intros v; cbn [append mem_char]; [reflexivity|]. rewrite IH. apply Bool.orb_true_r. }
  specialize (D x y). destruct H as [H|[H|[H|[H|[]]]]]; rewrite <- H in D; discriminate.
Qed.

(** ** Attributes of values *)
Definition tensor_attributes : list string := (kept_attributes ++ called_attributes ++ missing_attributes)%list.
Lemma class_rows : forallb (fun r => forallb (fun c => negb (prefix (c ++ ".") (r_name r)) ||
  mem_str (r_name r) (map (append "torch.Tensor.") tensor_attributes)) classes) attribute_mapping = true.
Proof. vm_compute. reflexivity. Qed.
Lemma class_aliases : forallb (fun kv => negb (existsb (fun c => prefix (c ++ ".") (fst kv)) classes) ||
  match find_row (snd kv) attribute_mapping with None => true | Some _ => false end) alias_mapping = true.
Proof. vm_compute. reflexivity. Qed.
Lemma class_attribute c x : In c classes -> known false (c ++ "." ++ x) -> c = "torch.Tensor" /\ In x tensor_attributes.
Proof.
  intros C K. unfold known, in_attribute_mapping in K. destruct (find_row (canonical (c ++ "." ++ x)) attribute_mapping) as [r|] eqn:F; [|discriminate].
  assert (PX : prefix (c ++ ".") (c ++ "." ++ x) = true).
  { change (c ++ "." ++ x) with (c ++ String "." x). replace (c ++ String "." x) with ((c ++ ".") ++ x) by (rewrite app_assoc_s; reflexivity). apply prefix_app. }
  unfold canonical in F. destruct (dget String.eqb (c ++ "." ++ x) alias_mapping) as [v|] eqn:D.
  { exfalso. apply dget_in in D. pose proof (proj1 (forallb_forall _ _) class_aliases _ D) as G. cbn [fst snd] in G.
    rewrite F, Bool.orb_false_r in G. apply Bool.negb_true_iff in G. apply Bool.not_true_iff_false in G. apply G, existsb_exists. exists c. split; [exact C|exact PX]. }
  apply find_row_some in F as [I N]. pose proof (proj1 (forallb_forall _ _) class_rows _ I) as G. cbv beta in G.
  pose proof (proj1 (forallb_forall _ _) G c C) as G'. cbv beta in G'. rewrite N, PX in G'. cbn [negb orb] in G'. apply mem_str_In in G'. apply in_map_iff in G' as (y & E & Y).
  destruct C as [<-|[<-|[<-|[<-|[<-|[]]]]]]; cbn [append] in E; try discriminate E. injection E as ->. split; [reflexivity|exact Y].
Qed.
Lemma kept_lookup : forallb (fun x => match get_attribute_matcher ("torch.Tensor." ++ x) with
  | LMatcher a c r => String.eqb a ("torch.Tensor." ++ x) && String.eqb c "ChangePrefixMatcher" && negb (contains "torch" ("Tensor." ++ x)) | _ => false end) kept_attributes = true.
Proof. vm_compute. reflexivity. Qed.
Lemma called_lookup : forallb (fun x => match get_attribute_matcher ("torch.Tensor." ++ x) with
  | LMatcher a c r => String.eqb c "Attribute2Func" && match paddle_api (r_entry r) with Some p => String.eqb p ("paddle.Tensor." ++ x) && cut_well p | None => false end
      && negb (name_enables (MkMatcher a c r "")) && negb (asserting c) | _ => false end) called_attributes = true.
Proof. vm_compute. reflexivity. Qed.
Lemma missing_lookup : forallb (fun x => match get_attribute_matcher ("torch.Tensor." ++ x) with LNone => true | _ => false end) missing_attributes = true.
Proof. vm_compute. reflexivity. Qed.
Lemma torch_target : dget String.eqb "torch" torch_package_mapping = Some "paddle".
Proof. vm_compute. reflexivity. Qed.
Lemma called_no_dot : forallb (fun x => negb (mem_char "."%char x)) called_attributes = true.
Proof. reflexivity. Qed.

Section Names.
Variable t : tools.
Lemma replaced old new rest : old <> "" -> contains old rest = false -> py_replace (old ++ rest) old new = new ++ rest.
Proof. intros N C. unfold py_replace. rewrite replace_aux_match by exact N. f_equal. apply replace_no, C. Qed.
Lemma new_name_asked a c r origin name st w : row_of a c r -> new_name t a r name ->
  ~ In name special_words /\
  exists l w', shipped_api t (MkMatcher a c r origin) st w = Ok (Some name, l, w') /\ brings t c r w l w'.
Proof.
  intros (M & I & RN) N.
  assert (P : ~ In name special_words /\ paddle_name t (MkMatcher a c r origin) = Ok (Some name)).
  { unfold paddle_name. cbn [m_class m_row m_api m_origin].
    destruct N as [pkg target rest M' MM A C T|c' p M' NC P NE|M'|rest M' A C|rest M' A C]; rewrite M in M'; injection M' as EC; [subst c|subst c'|subst c|subst c|subst c].
    - split; [exact (dotted_special target rest)|]. cbn [String.eqb Ascii.eqb Bool.eqb]. rewrite MM, A. rewrite (change_prefix_exact _ _ _ _ T C). reflexivity.
    - pose proof (proj1 (forallb_forall _ _) names_ok r I) as K. unfold name_ok in K. rewrite P, M in K. apply andb_prop in K as [K1 K2].
      split. { intros [E|E]; [exact (NE (eq_sym E))|]. apply Bool.negb_true_iff in K1. apply mem_str_false in K1. exact (K1 E). }
      cbn [In] in NC. 
      destruct (String.eqb_spec c "ChangePrefixMatcher") as [->|_]; [exfalso; apply NC; auto|].
      destruct (String.eqb_spec c "ChangeAPIMatcher") as [->|_].
      { cbn [String.eqb Ascii.eqb Bool.eqb negb orb] in K2. destruct RN as [<-|W]; [rewrite K2, P; reflexivity|].
        pose proof (proj1 (forallb_forall _ _) wildcard_unnamed r W) as X. cbv beta in X. rewrite P in X. discriminate. }
      destruct (String.eqb_spec c "EinopsTorchMatcher") as [->|_]; [exfalso; apply NC; auto|].
      destruct (String.eqb_spec c "TransformersGenericMatcher") as [->|_]; [exfalso; apply NC; auto|].
      destruct (String.eqb_spec c "FAApplyRotaryEmbFuncMatcher") as [->|_]; [exfalso; apply NC; auto 6|].
      unfold has_name. rewrite P. cbn [negb]. rewrite Bool.andb_false_r. reflexivity.
    - split; [|reflexivity]. cbn. intuition discriminate.
    - split; [exact (dotted_special "einops" ("layers.paddle" ++ rest))|]. cbn [String.eqb Ascii.eqb Bool.eqb]. rewrite A, replaced by (exact C || discriminate). reflexivity.
    - split; [exact (dotted_special "paddleformers" ("transformers." ++ rest))|]. cbn [String.eqb Ascii.eqb Bool.eqb]. rewrite A, replaced by (exact C || discriminate). reflexivity. }
  destruct P as [S P]. split; [exact S|]. unfold shipped_api. rewrite P. cbn [bind].
  destruct (enable_if t (name_enables (MkMatcher a c r origin)) _ w) as [l w'] eqn:E. exists l, w'. split; [reflexivity|].
  cbn [m_class] in E. unfold brings, of_helper.
  assert (NH := ShippedNames.name_enables_iff (MkMatcher a c r origin)). unfold ShippedNames.names_helper in NH. cbn [m_class m_row] in NH.
  split.
  - intros (W & HC & H). apply NH in H. rewrite H in E. cbn [enable_if] in E. unfold enable in E.
    apply mem_str_In in W. rewrite W in E. apply String.eqb_neq in HC. rewrite HC in E. cbn [andb negb] in E. injection E as <- <-. split; reflexivity.
  - intros H. unfold enable_if, enable in E. destruct (name_enables _) eqn:NE; [|injection E as <- <-; split; reflexivity].
    destruct (mem_str c with_helper) eqn:W; [|injection E as <- <-; split; reflexivity].
    destruct (String.eqb_spec (helper_code t c) "") as [HC|HC]; [injection E as <- <-; split; reflexivity|].
    exfalso. apply H. split; [apply mem_str_In, W|]. split; [exact HC|]. apply NH. reflexivity.
Qed.
Lemma insert_any {M} (e : benv M) st p line l s : parent st = Ok p -> scope_body_index st (scopes s) = Ok line ->
  exists b s1, insert_multi_node e l st s = Ok (b, s1).
Proof.
  intros P A. unfold insert_multi_node. destruct (filter _ l); [eauto|]. rewrite P. cbn [bind]. destruct (mem_str _ _); [eauto|].
  rewrite record_scopes, A. cbn [bind]. eauto.
Qed.
Lemma insert_shared {M} (e : benv M) l st s b s1 : insert_multi_node e l st s = Ok (b, s1) -> shared s1 = shared s.
Proof.
  unfold insert_multi_node. destruct (filter _ _); [intros [= _ <-]; destruct (filter _ l); reflexivity|].
  destruct (parent st); [|discriminate]. cbn [bind]. destruct (mem_str _ _); [intros [= _ <-]; destruct (filter _ l); reflexivity|].
  destruct (scope_body_index _ _); [|discriminate]. cbn [bind]. intros [= _ <-]. destruct (filter (fun n => is_import n || mentions_sys_path e n) l); reflexivity.
Qed.

Lemma renamed_effect {M} (e : benv M) st p n api origin w x nm rs m w2 a c r name l w' :
  name_effect e st p n api origin w x nm rs m w2 -> attribute_lookup api = LMatcher a c r ->
  api_of e (MkMatcher a c r origin) st w = Ok (Some name, l, w') -> ~ In name special_words ->
  nm = Some name /\ rs = [ask e p l] /\ m = EffectSpec.Converted /\ w2 = w'.
Proof.
  intros EF L A S. cbn [special_words In] in S.
  destruct EF as [r0 q0 m0 w0 L0 W0|a0 c0 row t0 l0 w1 r0 q0 m0 w0 L0 A0 N0 W0|a0 c0 row l0 w0 L0 A0 K0|a0 c0 row l0 w0 L0 A0 K0 D0|a0 c0 row l0 w1 r0 q0 m0 w0 L0 A0 K0 D0 W0|a0 c0 row l0 w0 L0 A0|a0 c0 row l0 w0 L0 A0|a0 c0 row t0 l0 w0 new0 L0 A0 N0 P0];
    rewrite L in L0; try discriminate L0; injection L0 as -> -> ->; rewrite A in A0; injection A0 as E1 E2 E3;
    try (exfalso; subst name; tauto).
  - exfalso. destruct N0 as [N0|N0]; rewrite N0 in E1; [discriminate|injection E1 as E1; subst name; tauto].
  - subst. repeat split.
Qed.

Theorem name_rewritten imps n api a c r name new st p line s :
  let e := shipped_env t imps in
  plain_file e -> plain_use e n -> parent st = Ok p -> ~ (exists f x k, p = Call f x k /\ field_is "func" (here st) = true) ->
  stands_for e false n (Package api) -> attribute_lookup api = LMatcher a c r -> new_name t a r name ->
  parse_expr e name = Ok new -> scope_body_index st (scopes s) = Ok line -> NoDup (dkeys (all_apis s)) ->
  exists s' l, finish_attribute e n st s = Ok (Reply (VNode new), s') /\
    booked api api name EffectSpec.Converted s s' /\ requested line [ask e p l] s s' /\ brings t c r (shared s) l (shared s').
Proof.
  intros e PF PU P NF SF L NN PA B ND.
  destruct (PropertiesRecognise.C82_attributes_recognised_exactly _ e n st s p PF PU P NF) as (rd & SF' & H).
  rewrite (PropertiesRecognise.C82_one_reading _ _ _ _ _ _ SF' SF) in H. destruct H as (o & _ & H).
  destruct (new_name_asked a c r (dotted o) name st (shared s) (lookup_row _ _ _ _ L) NN) as (S & l & w' & A & BR).
  assert (V : exists s', visit_torch_attribute e n api (dotted o) st s = Ok (Reply (VNode new), s')).
  { unfold visit_torch_attribute. rewrite L. cbn [matcher_of bind]. unfold ask_api. change (api_of e) with (shipped_api t). change (shared (recognise api s)) with (shared s). rewrite A. cbn [bind].
    destruct (insert_any e st p line l (with_shared (recognise api s) w') P B) as (b & s1 & E). rewrite E. cbn [bind]. cbn [special_words In] in S.
    destruct (String.eqb_spec name "delete") as [->|_]; [exfalso; tauto|].
    destruct (String.eqb_spec name "misidentify") as [->|_]; [exfalso; tauto|].
    destruct (String.eqb_spec name "unchange") as [->|_]; [exfalso; tauto|].
    destruct (String.eqb_spec name "") as [->|_]; [exfalso; tauto|]. rewrite PA. cbn [bind]. eexists. reflexivity. }
  destruct V as [s' V]. exists s', l. split; [rewrite H; exact V|].
  destruct (package_name_effect e st p line P n api (dotted o) s (Reply (VNode new)) s') as (nm & rs & m & EF & BK & RQ); [intros q Q; rewrite B in Q; injection Q as <-; reflexivity|exact ND|exact V|].
  assert (X : nm = Some name /\ rs = [ask e p l] /\ m = EffectSpec.Converted /\ shared s' = w').
  { eapply renamed_effect; [exact EF|exact L|exact A|exact S]. }
  destruct X as (-> & -> & -> & <-). split; [exact BK|]. split; [exact RQ|exact BR].
Qed.

Lemma dotted_name a0 m : no_char "."%char m -> split_on "."%char (a0 ++ "." ++ m) = (split_on "."%char a0 ++ [m])%list.
Proof.
  intros N. induction a0 as [|c a0 IH].
  - change ("" ++ "." ++ m) with (String "."%char m). cbn [split_on]. rewrite Ascii.eqb_refl, (split_on_single _ _ N). reflexivity.
  - change (String c a0 ++ "." ++ m) with (String c (a0 ++ "." ++ m)). cbn [split_on]. rewrite IH. destruct (Ascii.eqb c "."); [reflexivity|].
    pose proof (split_on_nonempty "."%char a0) as NE. destruct (split_on "."%char a0); [contradiction|reflexivity].
Qed.
Lemma long_name h rest : (2 <= List.length (split_on "."%char (h ++ "." ++ rest)))%nat.
Proof.
  induction h as [|c h IH].
  - change ("" ++ "." ++ rest) with (String "."%char rest). cbn [split_on]. rewrite Ascii.eqb_refl. pose proof (split_on_nonempty "."%char rest) as NE.
    destruct (split_on "."%char rest); [contradiction|cbn [List.length]; lia].
  - change (String c h ++ "." ++ rest) with (String c (h ++ "." ++ rest)). cbn [split_on]. destruct (split_on "."%char (h ++ "." ++ rest)) as [|x l]; [cbn in IH; lia|].
    destruct (Ascii.eqb c "."); cbn [List.length] in *; lia.
Qed.
Section Owner.
Variables (imps : ist) (n : node) (h rest x a c : string) (r : row) (st : list frame) (p : node) (line : place) (s : bst world).
Let e := shipped_env t imps.
Let owner_api := h ++ "." ++ rest.
Let api := owner_api ++ "." ++ x.
Hypothesis PF : plain_file e.
Hypothesis PU : plain_use e n.
Hypothesis P : parent st = Ok p.
Hypothesis NF : ~ (exists f y k, p = Call f y k /\ field_is "func" (here st) = true).
Hypothesis SF : stands_for e false n (Package api).
Hypothesis NX : no_char "."%char x.
Hypothesis L : attribute_lookup api = LNone.
Hypothesis LO : get_api_matcher owner_api = LMatcher a c r.
Lemma owner_dispatched : exists o, finish_attribute e n st s = attribute_rest e n api (dotted o) st (recognise api s).
Proof.
  destruct (PropertiesRecognise.C82_attributes_recognised_exactly _ e n st s p PF PU P NF) as (rd & SF' & H).
  rewrite (PropertiesRecognise.C82_one_reading _ _ _ _ _ _ SF' SF) in H. destruct H as (o & _ & H). exists o. rewrite H.
  unfold visit_torch_attribute. rewrite L. reflexivity.
Qed.
Lemma owner_parts : split_on "."%char api = (split_on "."%char owner_api ++ [x])%list /\ (3 <=? List.length (split_on "."%char api))%nat = true /\
  join "." (removelast (split_on "."%char api)) = owner_api /\ last (split_on "."%char api) "" = x.
Proof.
  unfold api. rewrite dotted_name by exact NX. split; [reflexivity|]. rewrite removelast_last, last_last. split; [|split; [apply (join_split "."%char)|reflexivity]].
  apply Nat.leb_le. rewrite app_length. pose proof (long_name h rest). unfold owner_api. cbn [List.length]. lia.
Qed.
Theorem member_of_name name new : new_name t a r name -> parse_expr e (name ++ "." ++ x) = Ok new ->
  scope_body_index st (scopes s) = Ok line -> NoDup (dkeys (all_apis s)) ->
  exists s' l, finish_attribute e n st s = Ok (Reply (VNode new), s') /\
    booked api api (old_name api s) EffectSpec.Converted s s' /\ requested line [ask e p l] s s' /\ brings t c r (shared s) l (shared s').
Proof.
  intros NN PA B ND. destruct owner_parts as (E0 & E1 & E2 & E3). 
  destruct (PropertiesRecognise.C82_attributes_recognised_exactly _ e n st s p PF PU P NF) as (rd & SF' & H).
  rewrite (PropertiesRecognise.C82_one_reading _ _ _ _ _ _ SF' SF) in H. destruct H as (o & _ & H).
  destruct (new_name_asked a c r (dotted o) name st (shared s) (api_row _ _ _ _ LO) NN) as (S & l & w' & A & BR). cbn [special_words In] in S.
  assert (NU : name <> "unchange") by (intros ->; tauto).
  assert (V : exists s', visit_torch_attribute e n api (dotted o) st s = Ok (Reply (VNode new), s')).
  { unfold visit_torch_attribute. rewrite L. cbn [matcher_of bind]. unfold attribute_rest. rewrite E1, E2, E3, LO. cbn [matcher_of bind]. unfold ask_api.
    change (api_of e) with (shipped_api t). change (shared (recognise api s)) with (shared s). rewrite A. cbn [bind].
    destruct (insert_any e st p line l (with_shared (recognise api s) w') P B) as (b & s1 & E). rewrite E. cbn [bind].
    rewrite (proj2 (String.eqb_neq _ _) NU), PA. cbn [bind]. eexists. reflexivity. }
  destruct V as [s' V]. exists s', l. split; [rewrite H; exact V|].
  destruct (package_name_effect e st p line P n api (dotted o) s (Reply (VNode new)) s') as (nm & rs & m & EF & BK & RQ); [intros q Q; rewrite B in Q; injection Q as <-; reflexivity|exact ND|exact V|].
  assert (X : nm = None /\ rs = [ask e p l] /\ m = EffectSpec.Converted /\ shared s' = w').
  { destruct EF as [r0 q0 m0 w0 L0 W0|a0 c0 row t0 l0 w1 r0 q0 m0 w0 L0|a0 c0 row l0 w0 L0|a0 c0 row l0 w0 L0|a0 c0 row l0 w1 r0 q0 m0 w0 L0|a0 c0 row l0 w0 L0|a0 c0 row l0 w0 L0|a0 c0 row t0 l0 w0 new0 L0];
      rewrite L in L0; try discriminate L0. split; [reflexivity|].
    destruct W0 as [K0|K0 G0|a0 c0 row0 l0 w0 K0 G0 A0|a0 c0 row0 q0 l0 w0 new0 K0 G0 A0 N0 P0].
    - apply Nat.leb_le in E1. lia.
    - rewrite E2, LO in G0. discriminate.
    - rewrite E2, LO in G0. injection G0 as <- <- <-. change (api_of e) with (shipped_api t) in A0. rewrite A in A0. injection A0 as A0 _ _. contradiction.
    - rewrite E2, LO in G0. injection G0 as <- <- <-. change (api_of e) with (shipped_api t) in A0. rewrite A in A0. injection A0 as <- <- <-. repeat split. }
  destruct X as (-> & -> & -> & <-). split; [exact BK|]. split; [exact RQ|exact BR].
Qed.
Theorem member_of_nameless : ~ In c ["ChangePrefixMatcher"; "EinopsTorchMatcher"; "TransformersGenericMatcher"; "FAApplyRotaryEmbFuncMatcher"; "PaddleFlagMatcher"] ->
  paddle_api (r_entry r) = None -> exists x, finish_attribute e n st s = Raise x.
Proof.
  intros NC PN. destruct owner_parts as (E0 & E1 & E2 & E3). destruct owner_dispatched as [o H]. rewrite H. unfold attribute_rest. rewrite E1, E2, LO. cbn [matcher_of bind].
  unfold ask_api. change (api_of e) with (shipped_api t). unfold shipped_api, paddle_name. cbn [m_class m_row m_api m_origin].
  cbn [In] in NC.
  destruct (String.eqb_spec c "ChangePrefixMatcher") as [->|_]; [exfalso; apply NC; auto|].
  destruct (String.eqb_spec c "EinopsTorchMatcher") as [->|_]; [exfalso; apply NC; auto|].
  destruct (String.eqb_spec c "TransformersGenericMatcher") as [->|_]; [exfalso; apply NC; auto|].
  destruct (String.eqb_spec c "FAApplyRotaryEmbFuncMatcher") as [->|_]; [exfalso; apply NC; auto 6|].
  assert (NB : name_enables (MkMatcher a c r (dotted o)) = false).
  { apply Bool.not_true_iff_false. intros K. apply ShippedNames.name_enables_iff in K. destruct K as [K|[_ (q & K & _)]]; cbn [m_class m_row In] in K; [|congruence].
    destruct K as [K|[K|[]]]; apply NC; rewrite <- K; auto 7. }
  destruct (insert_nothing e st (with_shared (recognise api s) (shared (recognise api s)))) as (s1 & E & _).
  rewrite PN, NB. destruct (String.eqb c "ChangeAPIMatcher"); [destruct (get_paddle_api_returns _ _ _)|destruct (_ && _)]; cbn [bind enable_if]; rewrite ?E; cbn [bind]; eauto.
Qed.
End Owner.

Section Members.
Variables (imps : ist) (n : node) (x : string) (st : list frame) (p : node) (line : place) (s : bst world).
Let e := shipped_env t imps.
Let api := "torch.Tensor." ++ x.
Hypothesis PF : plain_file e.
Hypothesis PU : plain_use e n.
Hypothesis P : parent st = Ok p.
Hypothesis NF : ~ (exists f y k, p = Call f y k /\ field_is "func" (here st) = true).
Hypothesis SF : stands_for e false n (Member api).
Hypothesis B : scope_body_index st (scopes s) = Ok line.
Hypothesis ND : NoDup (dkeys (all_apis s)).
Lemma member_dispatched : exists o, finish_attribute e n st s = trans_class_attribute e n api (dotted o) st (recognise api s).
Proof.
  destruct (PropertiesRecognise.C82_attributes_recognised_exactly _ e n st s p PF PU P NF) as (rd & SF' & H).
  rewrite (PropertiesRecognise.C82_one_reading _ _ _ _ _ _ SF' SF) in H. destruct H as (o & _ & H). exists o. exact H.
Qed.
Lemma line_here : above st line s.
Proof. intros q Q. rewrite B in Q. injection Q as <-. reflexivity. Qed.

Theorem member_kept : In x kept_attributes -> min_mode t = false ->
  exists s', finish_attribute e n st s = Ok (Reply (VNode n), s') /\
    booked api api ("paddle.Tensor." ++ x) EffectSpec.Converted s s' /\ requested line [] s s' /\ shared s' = shared s.
Proof.
  intros I MM. destruct member_dispatched as [o D]. pose proof (proj1 (forallb_forall _ _) kept_lookup x I) as K. cbv beta in K. fold api in K.
  destruct (get_attribute_matcher api) as [| | |a c r] eqn:L; try discriminate K. rewrite !andb_true_iff in K. destruct K as [[K1 K2] K3].
  apply String.eqb_eq in K1, K2. apply Bool.negb_true_iff in K3. subst a c.
  set (m := MkMatcher api "ChangePrefixMatcher" r (dotted o)).
  assert (A : forall w, api_of e m st w = Ok (Some ("paddle.Tensor." ++ x), [], w)).
  { intros w. change (api_of e) with (shipped_api t). unfold shipped_api, paddle_name. unfold m; cbn [m_class m_api m_origin m_row String.eqb Ascii.eqb Bool.eqb].
    rewrite MM. unfold api. change ("torch.Tensor." ++ x) with ("torch" ++ "." ++ ("Tensor." ++ x)). rewrite (change_prefix_exact _ _ _ _ torch_target K3). cbn [bind].
    unfold enable_if, enable. cbn [m_class]. destruct (name_enables _); reflexivity. }
  assert (AN : forall w, attr_nodes e m n st w = Ok (AUnchange, [], w)) by reflexivity.
  assert (NE : "paddle.Tensor." ++ x <> "") by discriminate.
  assert (V : exists s', trans_class_attribute e n api (dotted o) st (recognise api s) = Ok (Reply (VNode n), s')).
  { unfold trans_class_attribute. rewrite L. cbn [matcher_of bind]. fold m.
    destruct (note_plain e api m st (recognise api s) _ NE A) as (s1 & E1 & SH1 & SC1). rewrite E1. cbn [bind]. rewrite AN. cbn [bind].
    destruct (insert_nothing e st (with_shared s1 (shared s1))) as (s2 & E2 & _). rewrite E2. cbn [bind]. eexists. reflexivity. }
  destruct V as [s' V]. exists s'. split; [rewrite D; exact V|].
  destruct (attribute_effect e st p line P n api (dotted o) s _ s' line_here ND V) as [(N & _)|H]; [rewrite L in N; discriminate|].
  destruct H as (a0 & c0 & r0 & n0 & ls & w0 & an & ex & rs & mk & L0 & NM & CN & EF & BK & RQ).
  rewrite L in L0. injection L0 as <- <- <-. destruct (named_plain e _ _ _ _ _ _ _ NE A NM) as (-> & -> & LS).
  fold m in CN. rewrite AN in CN. injection CN as <- <- SH. inversion EF; subst. split; [exact BK|]. split; [|symmetry; exact SH].
  eapply requested_plain; [|exact RQ]. intros y Y. apply in_map_iff in Y as (z & <- & Z).
  apply in_app_or in Z as [Z|[<-|[]]]; [rewrite (LS z Z)|]; apply ask_none.
Qed.
Theorem member_called v before last_ y : In x called_attributes -> source t n = v ++ "." ++ x -> plain_text v ->
  parse t (v ++ "." ++ x ++ "()") = Ok (before ++ [last_])%list -> expression_of last_ y -> In (kind_of y) for_attribute ->
  (no_room p -> for_the_line e before = []) ->
  exists s', finish_attribute e n st s = Ok (Reply (VNode y), s') /\
    booked api api ("paddle.Tensor." ++ x) EffectSpec.Converted s s' /\ requested line [ask e p before] s s' /\ shared s' = shared s.
Proof.
  intros I S PT PA X KY R. destruct member_dispatched as [o D]. pose proof (proj1 (forallb_forall _ _) called_lookup x I) as K. cbv beta in K. fold api in K.
  pose proof (proj1 (forallb_forall _ _) called_no_dot x I) as KD. cbv beta in KD. apply Bool.negb_true_iff in KD. apply no_char_mem in KD.
  destruct (get_attribute_matcher api) as [| | |a c r] eqn:L; try discriminate K. rewrite !andb_true_iff in K. destruct K as [[[K1 K2] K3] K4].
  apply String.eqb_eq in K1. apply Bool.negb_true_iff in K3, K4. subst c. destruct (paddle_api (r_entry r)) as [q|] eqn:Q; [|discriminate].
  apply andb_prop in K2 as [K2 K5]. apply String.eqb_eq in K2. subst q.
  set (m := MkMatcher a "Attribute2Func" r (dotted o)).
  assert (PN : paddle_name t m = Ok (Some ("paddle.Tensor." ++ x))).
  { unfold paddle_name. unfold m; cbn [m_class m_api m_origin m_row String.eqb Ascii.eqb Bool.eqb]. rewrite K4, Q. reflexivity. }
  assert (EN : name_enables m = false) by exact K3.
  assert (A : forall w, api_of e m st w = Ok (Some ("paddle.Tensor." ++ x), [], w)).
  { intros w. change (api_of e) with (shipped_api t). unfold shipped_api. rewrite PN, EN. reflexivity. }
  assert (AN : forall w, attr_nodes e m n st w = Ok (ANodes (before ++ [last_]), [], w)).
  { intros w. change (attr_nodes e) with (shipped_attribute t). unfold shipped_attribute.
    assert (CL : m_class m = "Attribute2Func") by reflexivity. rewrite CL. cbn [mem_str existsb String.eqb Ascii.eqb Bool.eqb orb].
    rewrite PN, EN. cbn [bind enable_if]. rewrite (receiver_exact t n v x S KD).
    assert (W : stored_name (Some v) (Some ("paddle.Tensor." ++ x)) = Some (v ++ "." ++ x)).
    { unfold stored_name. rewrite (proj2 (String.eqb_neq ("paddle.Tensor." ++ x) "")) by discriminate. f_equal.
      eapply called_on_functional; [apply with_receiver_exact; [exact K5|exact PT]|].
      apply (on_receiver _ "paddle.Tensor" ("." ++ x) v); [vm_compute; auto 10|reflexivity]. }
    rewrite W. cbn [text_of]. unfold Special.attribute_to_call. cbv iota beta. unfold as_nodes. rewrite !app_assoc_s.
    rewrite PA. reflexivity. }
  assert (NE : "paddle.Tensor." ++ x <> "") by discriminate.
  assert (V : exists s', trans_class_attribute e n api (dotted o) st (recognise api s) = Ok (Reply (VNode y), s')).
  { unfold trans_class_attribute. rewrite L. cbn [matcher_of bind]. fold m.
    destruct (note_plain e api m st (recognise api s) _ NE A) as (s1 & E1 & SH1 & SC1). rewrite E1. cbn [bind]. rewrite AN. cbn [bind].
    destruct (insert_nothing e st (with_shared s1 (shared s1))) as (s2 & E2 & _ & SC2). rewrite E2. cbn [bind].
    assert (RN := result_exact before last_ y X). assert (RL := removelast_last before last_).
    destruct (before ++ [last_])%list as [|z zs] eqn:BL; [destruct before; discriminate|]. rewrite RN.
    rewrite (proj2 (mem_str_In (kind_of y) attribute_results) KY), RL.
    destruct (insert_room e st p line before s2 P) as (s3 & E3); [rewrite SC2; cbn; rewrite SC1; exact B|exact R|].
    rewrite E3. cbn [bind]. eexists. reflexivity. }
  destruct V as [s' V]. exists s'. split; [rewrite D; exact V|].
  destruct (attribute_effect e st p line P n api (dotted o) s _ s' line_here ND V) as [(N & _)|H]; [rewrite L in N; discriminate|].
  destruct H as (a0 & c0 & r0 & n0 & ls & w0 & an & ex & rs & mk & L0 & NM & CN & EF & BK & RQ).
  rewrite L in L0. injection L0 as <- <- <-. destruct (named_plain e _ _ _ _ _ _ _ NE A NM) as (-> & -> & LS).
  fold m in CN. rewrite AN in CN. injection CN as <- <- SH. destruct (effect_rewritten e _ _ _ _ _ _ _ _ _ _ _ X KY R EF) as [-> ->].
  split; [exact BK|]. split; [|symmetry; exact SH].
  eapply requested_plain; [|exact RQ]. intros z Z. apply in_map_iff in Z as (u & <- & Z).
  apply in_app_or in Z as [Z|[<-|[]]]; [rewrite (LS u Z)|]; apply ask_none.
Qed.
Theorem member_missing : In x missing_attributes ->
  exists s', finish_attribute e n st s = Ok (Reply (VNode n), s') /\
    booked api api (old_name api s) EffectSpec.NotConverted s s' /\ requested line [([], [remark api])] s s' /\ shared s' = shared s.
Proof.
  intros I. destruct member_dispatched as [o D]. pose proof (proj1 (forallb_forall _ _) missing_lookup x I) as K. cbv beta in K. fold api in K.
  destruct (get_attribute_matcher api) as [| | |a c r] eqn:L; try discriminate K.
  assert (V : exists s', trans_class_attribute e n api (dotted o) st (recognise api s) = Ok (Reply (VNode n), s')).
  { unfold trans_class_attribute. rewrite L. cbn [matcher_of bind]. unfold annotate. change (scopes (unsupport api (recognise api s))) with (scopes s). 
    change (scopes (recognise api s)) with (scopes s). rewrite ?B. cbn [bind]. eexists. reflexivity. }
  destruct V as [s' V]. exists s'. split; [rewrite D; exact V|].
  destruct (attribute_effect e st p line P n api (dotted o) s _ s' line_here ND V) as [(_ & _ & BK & RQ & SH)|H].
  - split; [exact BK|]. split; [exact RQ|exact SH].
  - destruct H as (a0 & c0 & r0 & n0 & ls & w0 & an & ex & rs & mk & L0 & _). rewrite L in L0. discriminate.
Qed.
End Members.
End Names.
