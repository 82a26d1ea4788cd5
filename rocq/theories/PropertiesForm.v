(** C155: methods written out as functions of the receiver. *)
From Verif Require Import PyStr PyStrFacts PyDict PyDictFacts Ast Args ArgsFacts UtilsFile TablesData Generate GenerateData GenerateRel GenerateRows GenericBridge Grammar FlagSpec FlagFacts DatasetSpec DatasetFacts DatasetCalls OutSpec OutFacts LrSpec LrFacts PropertiesLr AdamFacts HistFacts MethodSpec MethodFacts PropertiesParallel BufferSpec PropertiesBuffer FormSpec.
Opaque api_mapping generators unique_name.

Lemma where_runs c d r0 i w x y : receiver c = Some w -> dget String.eqb "condition" d = Some x -> dget String.eqb "other" d = Some y ->
  exists q s, exec c g_TensorWhereMatcher (st [] d r0 i false) = Ret (Some (Text q), s) /\ render q = where_code w (render x) (render y).
Proof. intros R X Y. eexists; eexists; split; [opened g_TensorWhereMatcher; unfold st; eapply r_seq; [go|]; with_class R; go|unfold where_code, receiver_piece; txo]. Qed.
Lemma sparse_runs c d r0 i w : receiver c = Some w ->
  exists q s, exec c g_TensorToSparseCooMatcher (st [] d r0 i false) = Ret (Some (Text q), s) /\ render q = sparse_code w.
Proof. intros R. eexists; eexists; split; [opened g_TensorToSparseCooMatcher; unfold st; eapply r_seq; [go|]; with_class R; go|unfold sparse_code, receiver_piece; txo]. Qed.
Lemma power_runs c d r0 i w y : receiver c = Some w -> dget String.eqb "input" d = None -> dget String.eqb "exponent" d = Some y ->
  exists q s, exec c g_FloatPowerMatcher (st [] d r0 i false) = Ret (Some (Text q), s) /\ render q = power_method w (render y) /\ utils s = true.
Proof.
  intros R I Y. eexists; eexists; split; [opened g_FloatPowerMatcher; unfold st|].
  - eapply r_seq; [go|]. eapply r_seq; [eapply r_choose_no; [go|]; with_class R; apply r_done|]. go.
  - split; [unfold power_method, receiver_piece; txo|reflexivity].
Qed.
Lemma power_function_runs c d i x y : dget String.eqb "input" d = Some x -> dget String.eqb "exponent" d = Some y ->
  exists q s, exec c g_FloatPowerMatcher (st [] d None i false) = Ret (Some (Text q), s) /\ utils s = true /\
    render q = match dget String.eqb "out" d with Some o => "paddle.assign(" ++ power_function (render x) (render y) ++ ", " ++ render o ++ ")" | None => power_function (render x) (render y) end.
Proof.
  intros X Y. destruct (dget String.eqb "out" d) as [o|] eqn:O; (eexists; eexists; split; [opened g_FloatPowerMatcher; unfold st; go|split; [reflexivity|unfold power_function; txo]]).
Qed.
Lemma select_method c d r0 i w y z : receiver c = Some w -> dget String.eqb "input" d = None -> dget String.eqb "dim" d = Some y -> dget String.eqb "index" d = Some z ->
  exists q s, exec c g_SelectMatcher (st [] d r0 i false) = Ret (Some (Text q), s) /\ render q = select_code w (render y) (render z).
Proof.
  intros R I Y Z. eexists; eexists; split; [opened g_SelectMatcher; unfold st|].
  - eapply r_seq; [eapply r_choose_yes; [go|]; eapply r_seq; [eapply r_set; [apply r_class; exact R|finds|exact (eq_refl (receiver_piece w))|puts]|apply r_done]|]. go.
  - unfold select_code, receiver_piece; txo.
Qed.
Lemma narrow_method c d r0 i w y z l : receiver c = Some w -> dget String.eqb "input" d = None -> dget String.eqb "out" d = None -> dget String.eqb "dim" d = Some y -> dget String.eqb "start" d = Some z -> dget String.eqb "length" d = Some l ->
  exists q s m, exec c g_NarrowCopyMatcher (st [] d r0 i false) = Ret (Some (Text q), s) /\ render q = narrow_code ("start" ++ m) w (render y) (render z) (render l) "None".
Proof.
  intros R I O Y Z L. destruct (unique_starts i "start") as (m & M). eexists; eexists; exists m; split; [opened g_NarrowCopyMatcher; unfold st|].
  - eapply r_seq; [eapply r_choose_yes; [go|]; eapply r_seq; [eapply r_set; [apply r_class; exact R|finds|exact (eq_refl (receiver_piece w))|puts]|apply r_done]|].
    eapply r_seq; [go|]. eapply r_seq; [go|]. named. rewrite M. go.
  - unfold narrow_code, receiver_piece; txo.
Qed.
Ltac method_of n b := 
  assert (J : exists s r, find (fun r => String.eqb (r_name r) n) api_mapping = Some r /\ generator r = Some (s, b) /\ unsupport_args (r_entry r) = [] /\
    (forall k, In k ["input"; "out"] -> mem_str k (position_args (r_entry r) ++ args_list (r_entry r) ++ overload_args_list (r_entry r))%list = false)) by (row_found; split; [reflexivity|]; intros k [<-|[<-|[]]]; vm_compute; reflexivity).
Theorem C155_where :
  forall w args kwargs t x y i,
    undisturbed w -> reads_as "torch.Tensor.where" args kwargs t -> passes t "condition" x -> passes t "other" y ->
    exists q u, answer "torch.Tensor.where" (Some w) args kwargs i = Some (Ret (Converted q u)) /\ render q = where_code w x y.
Proof.
  intros w args kwargs t x y i U R X Y. method_of "torch.Tensor.where" g_TensorWhereMatcher. destruct J as (s & r & Fr & G & _).
  destruct (answer_form _ w r s _ args kwargs t i Fr G R U) as (c & r0 & E & Rc & _ & _ & H).
  destruct (where_runs c (start t) r0 i w _ _ Rc (got _ args kwargs t R "condition" x ltac:(discriminate) X) (got _ args kwargs t R "other" y ltac:(discriminate) Y)) as (q & s1 & B & W). rewrite !render_one in W. cbn [content] in W.
  exists q, (utils s1). split; [apply H; [exact B|]|exact W]. rewrite W. intros [Q|[Q|[Q|[]]]]; discriminate Q.
Qed.
Print Assumptions C155_where.
Theorem C155_sparse :
  forall w args kwargs t i,
    undisturbed w -> reads_as "torch.Tensor.to_sparse_coo" args kwargs t ->
    exists q u, answer "torch.Tensor.to_sparse_coo" (Some w) args kwargs i = Some (Ret (Converted q u)) /\ render q = sparse_code w.
Proof.
  intros w args kwargs t i U R. method_of "torch.Tensor.to_sparse_coo" g_TensorToSparseCooMatcher. destruct J as (s & r & Fr & G & _).
  destruct (answer_form _ w r s _ args kwargs t i Fr G R U) as (c & r0 & E & Rc & _ & _ & H).
  destruct (sparse_runs c (start t) r0 i w Rc) as (q & s1 & B & W).
  exists q, (utils s1). split; [apply H; [exact B|]|exact W]. rewrite W. intros [Q|[Q|[Q|[]]]]; discriminate Q.
Qed.
Print Assumptions C155_sparse.
Theorem C155_select :
  forall w args kwargs t y z i,
    undisturbed w -> reads_as "torch.Tensor.select" args kwargs t -> passes t "dim" y -> passes t "index" z ->
    exists q u, answer "torch.Tensor.select" (Some w) args kwargs i = Some (Ret (Converted q u)) /\ render q = select_code w y z.
Proof.
  intros w args kwargs t y z i U R Y Z. method_of "torch.Tensor.select" g_SelectMatcher. destruct J as (s & r & Fr & G & Us & K). pose proof (known_star _ r args kwargs t Fr Us R) as S.
  destruct (answer_form _ w r s _ args kwargs t i Fr G R U) as (c & r0 & E & Rc & _ & _ & H).
  assert (O : forall k, In k ["input"; "out"] -> dget String.eqb k (start t) = None) by (intros k I; apply (not_got _ args kwargs t R S); intros v; exact (unknown _ r args kwargs t Fr Us R k v (K k I))).
  destruct (select_method c (start t) r0 i w _ _ Rc (O "input" ltac:(cbn; tauto)) (got _ args kwargs t R "dim" y ltac:(discriminate) Y) (got _ args kwargs t R "index" z ltac:(discriminate) Z)) as (q & s1 & B & W). rewrite !render_one in W. cbn [content] in W.
  exists q, (utils s1). split; [apply H; [exact B|]|exact W]. rewrite W. intros [Q|[Q|[Q|[]]]]; discriminate Q.
Qed.
Print Assumptions C155_select.
Theorem C155_narrow :
  forall w args kwargs t y z l i,
    undisturbed w -> reads_as "torch.Tensor.narrow_copy" args kwargs t -> passes t "dim" y -> passes t "start" z -> passes t "length" l ->
    exists q u v, answer "torch.Tensor.narrow_copy" (Some w) args kwargs i = Some (Ret (Converted q u)) /\ render q = narrow_code ("start" ++ v) w y z l "None".
Proof.
  intros w args kwargs t y z l i U R Y Z L. method_of "torch.Tensor.narrow_copy" g_NarrowCopyMatcher. destruct J as (s & r & Fr & G & Us & K). pose proof (known_star _ r args kwargs t Fr Us R) as S.
  destruct (answer_form _ w r s _ args kwargs t i Fr G R U) as (c & r0 & E & Rc & _ & _ & H).
  assert (O : forall k, In k ["input"; "out"] -> dget String.eqb k (start t) = None) by (intros k I; apply (not_got _ args kwargs t R S); intros v; exact (unknown _ r args kwargs t Fr Us R k v (K k I))).
  destruct (narrow_method c (start t) r0 i w _ _ _ Rc (O "input" ltac:(cbn; tauto)) (O "out" ltac:(cbn; tauto)) (got _ args kwargs t R "dim" y ltac:(discriminate) Y) (got _ args kwargs t R "start" z ltac:(discriminate) Z) (got _ args kwargs t R "length" l ltac:(discriminate) L)) as (q & s1 & m & B & W). rewrite !render_one in W. cbn [content] in W.
  exists q, (utils s1), m. split; [apply H; [exact B|]|exact W]. rewrite W. intros [Q|[Q|[Q|[]]]]; discriminate Q.
Qed.
Print Assumptions C155_narrow.
Theorem C155_power :
  forall w args kwargs t y i,
    undisturbed w -> reads_as "torch.Tensor.float_power" args kwargs t -> passes t "exponent" y ->
    exists q, answer "torch.Tensor.float_power" (Some w) args kwargs i = Some (Ret (Converted q true)) /\ render q = power_method w y.
Proof.
  intros w args kwargs t y i U R Y. method_of "torch.Tensor.float_power" g_FloatPowerMatcher. destruct J as (s & r & Fr & G & Us & K). pose proof (known_star _ r args kwargs t Fr Us R) as S.
  destruct (answer_form _ w r s _ args kwargs t i Fr G R U) as (c & r0 & E & Rc & _ & _ & H).
  assert (O : forall k, In k ["input"; "out"] -> dget String.eqb k (start t) = None) by (intros k I; apply (not_got _ args kwargs t R S); intros v; exact (unknown _ r args kwargs t Fr Us R k v (K k I))).
  destruct (power_runs c (start t) r0 i w _ Rc (O "input" ltac:(cbn; tauto)) (got _ args kwargs t R "exponent" y ltac:(discriminate) Y)) as (q & s1 & B & W & V). rewrite !render_one in W. cbn [content] in W.
  exists q. split; [|exact W]. pose proof (H q s1 B) as T. rewrite V in T. apply T. apply (no_word "("); [|left; reflexivity]. rewrite W. unfold power_method. rewrite mem_char_app. cbn. apply Bool.orb_true_r.
Qed.
Print Assumptions C155_power.
Theorem C155_power_function :
  forall args kwargs t x y i,
    reads_as "torch.float_power" args kwargs t -> passes t "input" x -> passes t "exponent" y ->
    exists q, answer "torch.float_power" None args kwargs i = Some (Ret (Converted q true)) /\
      (forall o, passes t "out" o -> render q = "paddle.assign(" ++ power_function x y ++ ", " ++ o ++ ")") /\
      ((forall o, ~ passes t "out" o) -> render q = power_function x y).
Proof.
  intros args kwargs t x y i R X Y.
  assert (J : exists s r, find (fun r => String.eqb (r_name r) "torch.float_power") api_mapping = Some r /\ generator r = Some (s, g_FloatPowerMatcher) /\ unsupport_args (r_entry r) = []) by (row_found; reflexivity).
  destruct J as (s & r & Fr & G & Us). pose proof (known_star _ r args kwargs t Fr Us R) as S. destruct (answer_call _ r s _ args kwargs t i Fr G R) as (c & _ & _ & H).
  destruct (power_function_runs c (start t) i _ _ (got _ args kwargs t R "input" x ltac:(discriminate) X) (got _ args kwargs t R "exponent" y ltac:(discriminate) Y)) as (q & s1 & B & V & W). rewrite !render_one in W. cbn [content] in W.
  exists q. split; [|split].
  - pose proof (H q s1 B) as T. rewrite V in T. apply T. rewrite W. destruct (dget String.eqb "out" (start t)); reflexivity.
  - intros o P. rewrite W, (got _ args kwargs t R "out" o ltac:(discriminate) P), render_one. reflexivity.
  - intros P. rewrite W, (not_got _ args kwargs t R S "out" P). reflexivity.
Qed.
Print Assumptions C155_power_function.
Transparent api_mapping generators unique_name.
Example C155_nonvacuous :
  undisturbed "a.b[0]" /\
  (exists t, reads_as "torch.Tensor.where" [MkExpr false false "c"] [MkKw (Some "other") (MkExpr false false "o")] t /\ passes t "condition" "c" /\ passes t "other" "o") /\
  (exists t, reads_as "torch.Tensor.to_sparse_coo" [] [] t) /\
  (exists t, reads_as "torch.Tensor.select" [MkExpr false false "0"; MkExpr false false "n"] [] t /\ passes t "dim" "0" /\ passes t "index" "n") /\
  (exists t, reads_as "torch.Tensor.narrow_copy" [MkExpr false false "0"; MkExpr false false "s"] [MkKw (Some "length") (MkExpr false false "l")] t /\ passes t "dim" "0" /\ passes t "start" "s" /\ passes t "length" "l") /\
  (exists t, reads_as "torch.Tensor.float_power" [MkExpr false false "2"] [] t /\ passes t "exponent" "2") /\
  (exists t, reads_as "torch.float_power" [MkExpr false false "a"; MkExpr false false "2"] [MkKw (Some "out") (MkExpr false false "o")] t /\ passes t "input" "a" /\ passes t "exponent" "2" /\ passes t "out" "o").
Proof.
  split; [reflexivity|]. split; [|split; [eexists; eexists; split; vm_compute; reflexivity|split; [|split; [|split]]]]; (eexists; split; [eexists; split; vm_compute; reflexivity|]).
  - split; there.
  - split; there.
  - do 2 (split; [there|]). there.
  - there.
  - do 2 (split; [there|]). there.
Qed.
