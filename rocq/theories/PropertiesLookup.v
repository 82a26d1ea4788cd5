(** C24, C28-C30, C56-C59: what the shipped tables guarantee. *)
From Verif Require Import PyStr PyStrFacts PyDict PyDictFacts Args ArgsSpec ArgsFacts TablesData Lookup LookupSpec TableCheck LookupFacts.
Opaque api_mapping attribute_mapping alias_mapping wildcard_mapping matcher_classes.

(** C24.  For every shipped row, two different accepted parameter names are renamed to a
    common Paddle name exactly for the six listed rows (where "sections" and "indices"
    are alternative spellings of one parameter). *)
Theorem C24_shipped_renaming_collisions : forall r,
  In r shipped -> (collides (r_entry r) <-> In (r_name r) colliding).
Proof. exact shipped_collisions. Qed.
Print Assumptions C24_shipped_renaming_collisions.

(** ... in particular, for the other rows renaming keeps bindings of different
    parameters apart, whatever further names a matcher drops. *)
Theorem C24_shipped_renaming_injective : forall r unuse p q x,
  In r shipped -> ~ In (r_name r) colliding ->
  In p (accepted (r_entry r)) -> In q (accepted (r_entry r)) ->
  In x (new_names (r_entry r) unuse (Some p)) -> In x (new_names (r_entry r) unuse (Some q)) ->
  p = q.
Proof.
  intros r u p q x I N Ip Iq Xp Xq. destruct (String.eqb_spec p q) as [E|NE]; [exact E|].
  exfalso. apply N, (shipped_collisions r I). exists p, q, x.
  repeat split; try assumption; eapply new_names_unuse; eassumption.
Qed.
Print Assumptions C24_shipped_renaming_injective.
Example C24_nonvacuous :
  exists r, In r shipped /\ ~ In (r_name r) colliding /\
    In "input" (accepted (r_entry r)) /\ new_names (r_entry r) [] (Some "input") = [Some "x"].
Proof.
  exists (R "torch.linalg.matrix_rank" (Some "GenericMatcher") false false (MkEntry ["input"; "tol"; "hermitian"; "*"; "atol"; "rtol"; "hermitian"; "out"] [] 1 [] [("input", TName "x")] [] (Some "paddle.linalg.matrix_rank"))).
  split.
  { unfold shipped. apply in_app_iff. left.
    refine (proj1 (find_row_some "torch.linalg.matrix_rank" api_mapping _ _)). vm_compute. reflexivity. }
  split; [cbn; intuition discriminate|]. cbn. auto.
Qed.

(** C28.  In default mode, for a name "pkg.rest" of a torch package whose name does not
    occur again in [rest], prefix change yields "target.rest". *)
Theorem C28_prefix_change_replaces_package : forall pkg target rest origin,
  dget String.eqb pkg torch_package_mapping = Some target ->
  contains pkg rest = false ->
  change_prefix_name false (pkg ++ "." ++ rest) origin = Some (target ++ "." ++ rest).
Proof. exact change_prefix_exact. Qed.
Print Assumptions C28_prefix_change_replaces_package.

(** Every shipped row handled by prefix change satisfies that, but for one. *)
Theorem C28_shipped_rows : forall r origin,
  In r shipped -> r_matcher r = Some "ChangePrefixMatcher" -> r_name r <> "torch.torch.int32" ->
  exists pkg target rest,
    dget String.eqb pkg torch_package_mapping = Some target /\
    r_name r = pkg ++ "." ++ rest /\
    change_prefix_name false (r_name r) origin = Some (target ++ "." ++ rest).
Proof.
  intros r o I M N. destruct (shipped_prefix r I M N) as (p & t & rest & E & D & C).
  exists p, t, rest. split; [exact D|]. split; [exact E|]. rewrite E. apply change_prefix_exact; assumption.
Qed.
Print Assumptions C28_shipped_rows.
Example C28_nonvacuous : forall o,
  change_prefix_name false "torch.nn.Module" o = Some "paddle.nn.Module" /\
  dget String.eqb "torch" torch_package_mapping = Some "paddle" /\ contains "torch" "nn.Module" = false.
Proof. intros o. repeat split. Qed.

(** The exception: the package name occurs twice and both occurrences are replaced. *)
Theorem C28_repeated_package_refuted : exists r origin,
  In r shipped /\ r_matcher r = Some "ChangePrefixMatcher" /\ r_name r = "torch.torch.int32" /\
  change_prefix_name false (r_name r) origin = Some "paddle.paddle.int32".
Proof.
  exists (R "torch.torch.int32" (Some "ChangePrefixMatcher") false false (bare None)), "".
  split; [|repeat split].
  unfold shipped. apply in_app_iff.
  (left; refine (proj1 (find_row_some "torch.torch.int32" api_mapping _ _)); vm_compute; reflexivity) ||
  (right; refine (proj1 (find_row_some "torch.torch.int32" attribute_mapping _ _)); vm_compute; reflexivity).
Qed.
Print Assumptions C28_repeated_package_refuted.

(** In min mode the name is kept as the user wrote it. *)
Theorem C28_min_mode_keeps_name : forall n origin, change_prefix_name true n origin = Some origin.
Proof. reflexivity. Qed.
Print Assumptions C28_min_mode_keeps_name.

(** C29.  Looking up any string: the API lookup fails its assertion exactly for one
    shipped alias; the attribute lookup never does; neither names a missing class. *)
Theorem C29_api_lookup_assertion : forall n,
  get_api_matcher n = LAssert <-> n = clashing_alias.
Proof.
  intros n. unfold get_api_matcher. rewrite get_matcher_assert. split.
  - intros [A B]. apply (alias_api_common n A B).
  - intros ->. split.
    + apply dmem_in. vm_compute. reflexivity.
    + destruct (find_row clashing_alias api_mapping) as [r|] eqn:E; [|vm_compute in E; discriminate].
      apply find_row_some in E as [I N]. rewrite <- N. apply in_map, I.
Qed.
Print Assumptions C29_api_lookup_assertion.
Theorem C29_lookups_never_fail_otherwise : forall n,
  get_attribute_matcher n <> LAssert /\ get_attribute_matcher n <> LNameError /\ get_api_matcher n <> LNameError.
Proof.
  intros n. split; [|split].
  - unfold get_attribute_matcher. rewrite get_matcher_assert. intros [A B]. apply (alias_attr_disjoint n A B).
  - apply get_matcher_not_name_error, attr_incl.
  - apply get_matcher_not_name_error, api_incl.
Qed.
Print Assumptions C29_lookups_never_fail_otherwise.
(** For a name of a torch package the two lookups never both succeed, so the combined
    lookup fails only for the alias. *)
Theorem C29_torch_names_find_one_matcher : forall n,
  torch_name n -> attribute_lookup n = LAssert -> n = clashing_alias.
Proof.
  intros n T H. apply C29_api_lookup_assertion.
  destruct (C29_lookups_never_fail_otherwise n) as (NB & NEb & NEa).
  unfold attribute_lookup in H.
  destruct (get_attribute_matcher n) as [| | |cb mb rb] eqn:B; try congruence;
  destruct (get_api_matcher n) as [| | |ca ma ra] eqn:A; try congruence.
  exfalso. unfold get_attribute_matcher in B. unfold get_api_matcher in A.
  assert (NA' : get_matcher api_mapping n <> LAssert) by (rewrite A; discriminate).
  assert (NB' : get_matcher attribute_mapping n <> LAssert) by (rewrite B; discriminate).
  rewrite (get_matcher_unfold _ _ NA') in A. rewrite (get_matcher_unfold _ _ NB') in B.
  assert (W : forall t c m r,
     find_row (canonical n) t = None ->
     make_matcher (canonical n) (match find_row (canonical n) t with Some r => Some r | None => last_wildcard (canonical n) end) = LMatcher c m r ->
     In (canonical n) attr_names -> False).
  { intros t c m r F M K. rewrite F in M.
    assert (WM : make_matcher (canonical n) (last_wildcard (canonical n)) <> LNone) by (rewrite M; discriminate).
    apply wildcard_matcher in WM as [WM _]. rewrite names_not_einops in WM; [discriminate|].
    apply in_app_iff. auto. }
  destruct (find_row (canonical n) attribute_mapping) as [b|] eqn:Fb.
  - apply find_row_some in Fb as [Ib Nb].
    assert (K : In (canonical n) attr_names) by (rewrite <- Nb; apply in_map, Ib).
    destruct (find_row (canonical n) api_mapping) as [a|] eqn:Fa.
    + apply find_row_some in Fa as [Ia Na]. apply (api_attr_disjoint (canonical n)); [|exact K].
      rewrite <- Na. apply in_map, Ia.
    + apply (W api_mapping ca ma ra Fa); [rewrite Fa; exact A|exact K].
  - assert (WM : make_matcher (canonical n) (last_wildcard (canonical n)) <> LNone) by (rewrite B; discriminate).
    apply wildcard_matcher in WM as [WM _].
    destruct (canonical_cases n) as [[E C]|(t & I & C & _)].
    + rewrite C, torch_name_not_einops in WM; [discriminate|exact T].
    + rewrite C, names_not_einops in WM; [discriminate|]. apply in_app_iff. right.
      apply (in_map snd) in I. exact I.
Qed.
Print Assumptions C29_torch_names_find_one_matcher.
Example C29_nonvacuous : torch_name "torch.nn.Linear" /\ torch_name clashing_alias /\
  attribute_lookup clashing_alias = LAssert.
Proof.
  split; [exists "torch", "nn.Linear"; split; [left; reflexivity|reflexivity]|].
  split; [exists "torch", "utils.data.dataloader.DataLoader"; split; [left; reflexivity|reflexivity]|].
  vm_compute. reflexivity.
Qed.

(** C30.  Aliases are resolved in one step and share their target's lookup. *)
Theorem C30_alias_resolution_idempotent : forall n, canonical (canonical n) = canonical n.
Proof. exact canonical_idem. Qed.
Print Assumptions C30_alias_resolution_idempotent.
Theorem C30_alias_and_target_agree : forall n, n <> clashing_alias ->
  get_api_matcher (canonical n) = get_api_matcher n /\
  get_attribute_matcher (canonical n) = get_attribute_matcher n.
Proof.
  intros n N. split; apply get_matcher_canonical.
  - rewrite <- C29_api_lookup_assertion in N. exact N.
  - exact (proj1 (C29_lookups_never_fail_otherwise n)).
Qed.
Print Assumptions C30_alias_and_target_agree.
Example C30_nonvacuous : exists n, canonical n <> n /\ n <> clashing_alias /\
  exists c m r, get_api_matcher n = LMatcher c m r.
Proof.
  exists "torch.Tensor.arccos". vm_compute. split; [discriminate|]. split; [discriminate|]. eauto.
Qed.

(** C56.  Min mode keeps an imported name exactly when the later conversion uses prefix
    change for it (for every string but the clashing alias). *)
Theorem C56_min_mode_agrees_with_lookup : forall n, n <> clashing_alias ->
  (in_min_mode true n = true <->
   (exists c r, get_api_matcher n = LMatcher c "ChangePrefixMatcher" r) \/
   (exists c r, get_attribute_matcher n = LMatcher c "ChangePrefixMatcher" r)).
Proof. intros n N. apply in_min_mode_spec. rewrite C29_api_lookup_assertion. exact N. Qed.
Print Assumptions C56_min_mode_agrees_with_lookup.
Theorem C56_default_mode_keeps_nothing : forall n, in_min_mode false n = false.
Proof. reflexivity. Qed.
Print Assumptions C56_default_mode_keeps_nothing.
Example C56_nonvacuous : in_min_mode true "torch.nn.Linear" <> in_min_mode true "torch.nn.Module".
Proof. vm_compute. discriminate. Qed.

(** C57.  No generated API name belongs to a torch package, but for one shipped row. *)
Theorem C57_table_names_are_not_torch : forall r api,
  In r shipped -> paddle_api (r_entry r) = Some api -> r_name r <> "torch.distributed.Backend" ->
  ~ torch_name api.
Proof.
  intros r api I E N (pkg & rest & K & ->). destruct (pkg_no_dot pkg K) as [ND _].
  apply (shipped_paddle_api r _ I E N). rewrite first_component_dot by exact ND. exact K.
Qed.
Print Assumptions C57_table_names_are_not_torch.
Theorem C57_prefix_change_leaves_torch : forall n origin out,
  change_prefix_name false n origin = Some out -> ~ torch_name out.
Proof.
  intros n o out H (pkg & rest & K & ->). destruct (pkg_no_dot pkg K) as [ND _].
  apply change_prefix_first in H as (t & D & F). rewrite first_component_dot in F by exact ND. subst t.
  apply (target_ok _ _ D), K.
Qed.
Print Assumptions C57_prefix_change_leaves_torch.
Theorem C57_torch_name_generated_refuted : exists r api,
  In r shipped /\ paddle_api (r_entry r) = Some api /\ torch_name api.
Proof.
  exists (R "torch.distributed.Backend" (Some "DistributedBackendMatcher") false false (MkEntry ["name"] [] 1 [] [] [] (Some "torch.distributed.Backend"))), "torch.distributed.Backend".
  split.
  { unfold shipped. apply in_app_iff. left.
    refine (proj1 (find_row_some "torch.distributed.Backend" api_mapping _ _)). vm_compute. reflexivity. }
  split; [reflexivity|]. exists "torch", "distributed.Backend". split; [left; reflexivity|reflexivity].
Qed.
Print Assumptions C57_torch_name_generated_refuted.

(** C58.  Every shipped API handled by the generic matcher accepts the call that gives
    its required number of plain positional arguments. *)
Theorem C58_generic_rows_accept_minimal_call : forall r args,
  In r shipped -> r_matcher r = Some "GenericMatcher" ->
  List.length args = min_input_args (r_entry r) -> Forall (fun a => e_starred a = false) args ->
  exists t, parse_args_and_kwargs (r_entry r) false false args [] = (Bound t, []).
Proof. intros r args I M L F. apply minimal_call; auto. apply shipped_generic_minimal; assumption. Qed.
Print Assumptions C58_generic_rows_accept_minimal_call.
Example C58_nonvacuous : exists r, In r shipped /\ r_matcher r = Some "GenericMatcher" /\ min_input_args (r_entry r) = 1%nat.
Proof.
  destruct (find_row "torch.linalg.matrix_rank" api_mapping) as [r|] eqn:E; [|vm_compute in E; discriminate].
  exists r. split; [unfold shipped; apply in_app_iff; left; apply (find_row_some _ _ _ E)|].
  vm_compute in E. injection E as <-. split; reflexivity.
Qed.

(** C59.  Asking a shipped row's matcher for the Paddle name never trips an assertion,
    but for one row. *)
Theorem C59_matcher_assertions_hold : forall r m,
  In r shipped -> r_matcher r = Some m ->
  (get_paddle_api_returns (r_name r) m (r_entry r) = true <-> r_name r <> "torch.autograd.Function.backward").
Proof. exact shipped_returns. Qed.
Print Assumptions C59_matcher_assertions_hold.
Theorem C59_row_without_name_refuted : exists r m,
  In r shipped /\ r_matcher r = Some m /\ get_paddle_api_returns (r_name r) m (r_entry r) = false.
Proof.
  destruct (find_row "torch.autograd.Function.backward" api_mapping) as [r|] eqn:E; [|vm_compute in E; discriminate].
  exists r. destruct (r_matcher r) as [m|] eqn:M.
  - exists m. pose proof (find_row_some _ _ _ E) as [I N].
    assert (S : In r shipped) by (unfold shipped; apply in_app_iff; left; exact I).
    split; [exact S|]. split; [reflexivity|].
    destruct (get_paddle_api_returns (r_name r) m (r_entry r)) eqn:G; [|reflexivity].
    exfalso. apply (shipped_returns r m S M); [exact G|exact N].
  - exfalso. vm_compute in E. injection E as <-. discriminate.
Qed.
Print Assumptions C59_row_without_name_refuted.
