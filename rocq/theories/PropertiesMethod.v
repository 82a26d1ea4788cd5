(** C151: methods whose form changes. *)
From Verif Require Import PyStr PyStrFacts PyDict PyDictFacts Ast Args ArgsFacts UtilsFile TablesData Generate GenerateData GenerateRel GenerateRows GenericBridge Grammar FlagSpec FlagFacts DatasetSpec DatasetFacts DatasetCalls OutSpec OutFacts LrSpec LrFacts PropertiesLr AdamFacts MethodSpec MethodFacts.
Opaque api_mapping generators.

Lemma function_row n f ren : In (n, (f, ren)) functions ->
  exists s r, find (fun r => String.eqb (r_name r) n) api_mapping = Some r /\ generator r = Some (s, g_TensorFunc2PaddleFunc) /\ unsupport_args (r_entry r) = [] /\
    paddle_api (r_entry r) = Some f /\ f <> "" /\ segments 0 "" f = [Some f] /\ kwargs_change (r_entry r) = renaming_of ren /\ paddle_default_kwargs (r_entry r) = [] /\
    (forall p, In p ren -> snd p <> "") /\ NoDup (map snd ren) /\
    (forall k, In k (generic_unused ++ map snd ren)%list -> mem_str k (position_args (r_entry r) ++ args_list (r_entry r) ++ overload_args_list (r_entry r))%list = false).
Proof.
  intros I. unfold functions in I.
  repeat (destruct I as [I|I]; [injection I as <- <- <-; row_found; split; [reflexivity|]; split; [reflexivity|]; split; [discriminate|]; split; [vm_compute; reflexivity|]; split; [reflexivity|]; split; [reflexivity|];
    split; [easy_lists|]; split; [distinct|]; apply Forall_forall; unfold generic_unused; cbn [app map snd]; repeat (constructor; [vm_compute; reflexivity|]); constructor|]). destruct I.
Qed.
Theorem C151_functions :
  forall n f ren w args kwargs t i,
    In (n, (f, ren)) functions -> undisturbed w -> reads_as n args kwargs t ->
    exists q u m l, answer n (Some w) args kwargs i = Some (Ret (Converted q u)) /\ render q = call_on f w l /\ made_of m t [] [] /\ renamed_as ren m l.
Proof.
  intros n f ren w args kwargs t i I U R. destruct (function_row n f ren I) as (s & r & Fr & G & Us & A & Nf & Sg & C & D & Ne & Nd & K).
  pose proof (known_star _ r args kwargs t Fr Us R) as S. pose proof (keys_once _ args kwargs t R S) as N. pose proof (made_start t N S) as M.
  destruct (answer_form n w r s _ args kwargs t i Fr G R U) as (c & r0 & E & Rc & _ & Api & H).
  assert (X : forall k, In k (generic_unused ++ map snd ren)%list -> ~ In k (dkeys (start t))).
  { intros k J. apply (dget_none_iff _ String.eqb_spec). apply (not_got _ args kwargs t R S). intros v. exact (unknown _ r args kwargs t Fr Us R k v (K k J)). }
  destruct (function_runs c (start t) r0 i w f Rc (Api f A Nf Sg)) as (q & s1 & B & W).
  exists q, (utils s1), (texts (start t)). eexists. split; [apply H; [exact B|]|split; [exact W|split; [exact M|]]].
  - apply (no_word "("); [|left; reflexivity]. rewrite W. unfold call_on. rewrite mem_char_app, mem_char_app. cbn. apply Bool.orb_true_r.
  - unfold settled, default_ropes. rewrite (unused_free (row_of c) generic_unused (start t)) by (intros k J; apply X; apply in_or_app; left; exact J). rewrite E, D.
    apply renamed_texts; [exact C|exact Ne|exact Nd|exact N|]. intros p J. apply X. apply in_or_app. right. apply in_map. exact J.
Qed.
Print Assumptions C151_functions.
Theorem C151_attributes :
  forall n a w args kwargs t i,
    In (n, a) attributes -> undisturbed w -> reads_as n args kwargs t ->
    exists q u, answer n (Some w) args kwargs i = Some (Ret (Converted q u)) /\ render q = w ++ "." ++ a.
Proof.
  intros n a w args kwargs t i I U R.
  assert (J : exists s r, find (fun r => String.eqb (r_name r) n) api_mapping = Some r /\ generator r = Some (s, g_Func2Attribute) /\
    exists x, paddle_api (r_entry r) = Some x /\ x <> "" /\ segments 0 "" x = [Some ""; None; Some ("." ++ a)]).
  { unfold attributes in I. repeat (destruct I as [I|I]; [injection I as <- <-; row_found; eexists; split; [reflexivity|]; split; [discriminate|vm_compute; reflexivity]|]). destruct I. }
  destruct J as (s & r & Fr & G & x & A & Nx & Sg). destruct (answer_form n w r s _ args kwargs t i Fr G R U) as (c & r0 & E & Rc & Api & _ & H).
  destruct (attribute_runs c (start t) r0 i w ("." ++ a) (Api x _ A Nx Sg ltac:(discriminate))) as (q & s1 & B & W).
  exists q, (utils s1). split; [apply H; [exact B|]|exact W]. apply (no_word "."); [|right; reflexivity]. rewrite W, mem_char_app. cbn. apply Bool.orb_true_r.
Qed.
Print Assumptions C151_attributes.
Theorem C151_equal :
  forall w args kwargs t v i,
    undisturbed w -> reads_as "torch.Tensor.equal" args kwargs t -> passes t "other" v ->
    exists q u l, answer "torch.Tensor.equal" (Some w) args kwargs i = Some (Ret (Converted q u)) /\ render q = lines [call_of (w ++ ".equal_all") l ++ ".item()"] /\
      forall k x, In (k, x) l <-> k = "y" /\ x = v.
Proof.
  intros w args kwargs t v i U R P.
  assert (J : exists s r, find (fun r => String.eqb (r_name r) "torch.Tensor.equal") api_mapping = Some r /\ generator r = Some (s, g_EqualMatcher) /\ unsupport_args (r_entry r) = [] /\
    (exists x, paddle_api (r_entry r) = Some x /\ x <> "" /\ segments 0 "" x = [Some ""; None; Some ".equal_all"]) /\ kwargs_change (r_entry r) = renaming_of [("other", "y")] /\
    (forall k, k <> "other" -> mem_str k (position_args (r_entry r) ++ args_list (r_entry r) ++ overload_args_list (r_entry r))%list = false)).
  { row_found. split; [reflexivity|]. split; [eexists; split; [reflexivity|]; split; [discriminate|vm_compute; reflexivity]|]. split; [reflexivity|]. intros k Nk.
    apply mem_str_false. intros Q. apply Nk. vm_compute in Q. decompose [or] Q; try contradiction; symmetry; assumption. }
  destruct J as (s & r & Fr & G & Us & (x & A & Nx & Sg) & C & K). pose proof (known_star _ r args kwargs t Fr Us R) as S. pose proof (keys_once _ args kwargs t R S) as N. pose proof (made_start t N S) as [_ M].
  destruct (answer_form _ w r s _ args kwargs t i Fr G R U) as (c & r0 & E & Rc & Api & _ & H).
  destruct (equal_runs c (start t) r0 i w ".equal_all" (Api x _ A Nx Sg ltac:(discriminate))) as (q & s1 & B & W).
  assert (O : forall k v, k <> "other" -> ~ passes t k v) by (intros k v' Nk; exact (unknown _ r args kwargs t Fr Us R k v' (K k Nk))).
  assert (Z : renamed_as [("other", "y")] (texts (start t)) (texts (change_rope (row_of c) [] (start t)))).
  { apply renamed_texts; [rewrite E; exact C|easy_lists|distinct|exact N|]. intros p [<-|[]]. cbn [snd]. apply (dget_none_iff _ String.eqb_spec), (not_got _ args kwargs t R S). intros v'. apply O. discriminate. }
  exists q, (utils s1). eexists. split; [apply H; [exact B|]|split; [exact W|]].
  - rewrite W. intros [Q|[Q|[Q|[]]]]; discriminate Q.
  - intros k y. destruct Z as [_ Z]. rewrite Z. split.
    + intros (j & Q & ->). apply M in Q as [[]|(_ & _ & Q)]. destruct (String.eqb_spec j "other") as [->|Nj]; [|destruct (O j y Nj Q)]. split; [reflexivity|].
      assert (L : [MkPiece [Argument "other"] y] = [MkPiece [Argument "other"] v]) by (pose proof (got _ args kwargs t R "other" y ltac:(discriminate) Q) as L1; pose proof (got _ args kwargs t R "other" v ltac:(discriminate) P) as L2; rewrite L1 in L2; injection L2 as ->; reflexivity).
      injection L as ->. reflexivity.
    + intros [-> ->]. exists "other". split; [|reflexivity]. apply M. right. split; [intros []|]. split; [intros []|exact P].
Qed.
Print Assumptions C151_equal.
Theorem C151_histc :
  forall w args kwargs t i,
    undisturbed w -> reads_as "torch.Tensor.histc" args kwargs t ->
    exists q u l, answer "torch.Tensor.histc" (Some w) args kwargs i = Some (Ret (Converted q u)) /\ render q = call_of (w ++ ".histogram") l ++ ".astype(" ++ w ++ ".dtype)" /\ made_of l t [] [].
Proof.
  intros w args kwargs t i U R.
  assert (J : exists s r, find (fun r => String.eqb (r_name r) "torch.Tensor.histc") api_mapping = Some r /\ generator r = Some (s, g_HistcMatcher) /\ unsupport_args (r_entry r) = [] /\
    (exists x, paddle_api (r_entry r) = Some x /\ x <> "" /\ segments 0 "" x = [Some ""; None; Some ".histogram"]) /\
    (forall k, In k ["input"; "out"] -> mem_str k (position_args (r_entry r) ++ args_list (r_entry r) ++ overload_args_list (r_entry r))%list = false)).
  { row_found. split; [reflexivity|]. split; [eexists; split; [reflexivity|]; split; [discriminate|vm_compute; reflexivity]|]. intros k [<-|[<-|[]]]; vm_compute; reflexivity. }
  destruct J as (s & r & Fr & G & Us & (x & A & Nx & Sg) & K). pose proof (known_star _ r args kwargs t Fr Us R) as S. pose proof (keys_once _ args kwargs t R S) as N.
  destruct (answer_form _ w r s _ args kwargs t i Fr G R U) as (c & r0 & E & Rc & Api & _ & H).
  assert (O : forall k, In k ["input"; "out"] -> dget String.eqb k (start t) = None) by (intros k I; apply (not_got _ args kwargs t R S); intros v; exact (unknown _ r args kwargs t Fr Us R k v (K k I))).
  destruct (histc_runs c (start t) r0 i w ".histogram" Rc (Api x _ A Nx Sg ltac:(discriminate)) (O "input" ltac:(cbn; tauto)) (O "out" ltac:(cbn; tauto))) as (q & s1 & B & W).
  exists q, (utils s1), (texts (start t)). split; [apply H; [exact B|]|split; [exact W|apply made_start; assumption]].
  apply (no_word "("); [|left; reflexivity]. rewrite W, mem_char_app, call_bracket. reflexivity.
Qed.
Print Assumptions C151_histc.
Lemma type_row : exists s r, find (fun r => String.eqb (r_name r) "torch.Tensor.type") api_mapping = Some r /\ generator r = Some (s, g_TensorTypeMatcher).
Proof. eexists; eexists; split; vm_compute; reflexivity. Qed.
Theorem C151_type :
  forall w args kwargs t v i,
    undisturbed w -> reads_as "torch.Tensor.type" args kwargs t -> (forall v, ~ In (None, v) t) -> (forall v, ~ passes t "dst_type" v) -> passes t "dtype" v ->
    exists q u, answer "torch.Tensor.type" (Some w) args kwargs i = Some (Ret (Converted q u)) /\ render q = w ++ ".astype(" ++ v ++ ")".
Proof.
  intros w args kwargs t v i U R S O P. destruct type_row as (s & r & Fr & G). destruct (answer_form _ w r s _ args kwargs t i Fr G R U) as (c & r0 & E & Rc & _ & _ & H).
  destruct (type_given c (start t) r0 i w _ Rc (not_got _ args kwargs t R S "dst_type" O) (got _ args kwargs t R "dtype" v ltac:(discriminate) P)) as (q & s1 & B & W). rewrite render_one in W. cbn [content] in W.
  exists q, (utils s1). split; [apply H; [exact B|]|exact W]. apply (no_word "("); [|left; reflexivity]. rewrite W, mem_char_app. cbn. apply Bool.orb_true_r.
Qed.
Print Assumptions C151_type.
(** The name of the type is that of Paddle: where PyTorch has names like torch.FloatTensor, the new program gets names like paddle.float32. *)
Theorem C151_type_name :
  forall w args kwargs i,
    undisturbed w -> reads_as "torch.Tensor.type" args kwargs [] ->
    exists q u, answer "torch.Tensor.type" (Some w) args kwargs i = Some (Ret (Converted q u)) /\ render q = "str(" ++ w ++ ".dtype)".
Proof.
  intros w args kwargs i U R. destruct type_row as (s & r & Fr & G). destruct (answer_form _ w r s _ args kwargs [] i Fr G R U) as (c & r0 & E & Rc & _ & _ & H).
  destruct (type_name c r0 i w Rc) as (q & s1 & B & W).
  exists q, (utils s1). split; [apply H; [exact B|]|exact W]. rewrite W. intros [Q|[Q|[Q|[]]]]; discriminate Q.
Qed.
Print Assumptions C151_type_name.
Transparent api_mapping generators.
Example C151_nonvacuous :
  undisturbed "a.b[0]" /\
  (exists t, reads_as "torch.Tensor.ormqr" [MkExpr false false "tau"] [MkKw (Some "input3") (MkExpr false false "o"); MkKw (Some "left") (MkExpr false false "False")] t) /\
  (exists t, reads_as "torch.Tensor.numel" [] [] t) /\
  (exists t, reads_as "torch.Tensor.equal" [MkExpr false false "o"] [] t /\ passes t "other" "o") /\
  (exists t, reads_as "torch.Tensor.histc" [MkExpr false false "4"] [MkKw (Some "max") (MkExpr false false "3")] t) /\
  (exists t, reads_as "torch.Tensor.type" [MkExpr false false "torch.int32"] [] t /\ (forall v, ~ In (None, v) t) /\ (forall v, ~ passes t "dst_type" v) /\ passes t "dtype" "torch.int32") /\
  reads_as "torch.Tensor.type" [] [] [].
Proof.
  split; [reflexivity|]. split; [eexists; eexists; split; vm_compute; reflexivity|]. split; [eexists; eexists; split; vm_compute; reflexivity|].
  split; [eexists; split; [eexists; split; vm_compute; reflexivity|there]|]. split; [eexists; eexists; split; vm_compute; reflexivity|].
  split; [eexists; split; [eexists; split; vm_compute; reflexivity|]; split; [nowhere|]; split; [nowhere|there]|eexists; split; vm_compute; reflexivity].
Qed.
