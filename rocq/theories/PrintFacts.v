(** Facts for C143. *)
From Verif Require Import PyStr PyStrFacts PyDict PyDictFacts Ast Args ArgsFacts UtilsFile TablesData Generate GenerateData GenerateSym GenerateRel GenerateRows FlagSpec FlagFacts DatasetSpec DatasetFacts DatasetCalls OutSpec OutFacts LrSpec LrFacts AdamFacts PrintSpec.
Opaque api_mapping generators g_GenericMatcher.

Lemma r_missing c d e v w ds ds' vs r i u : dget String.eqb d ds = Some v -> dget String.eqb e ds = Some w -> dset String.eqb d (add_missing v w) ds = ds' ->
  step c (SMissing d e) (MkState vs ds r i u) = Ret (None, MkState vs ds' r i u).
Proof. intros A B <-. change (step c (SMissing d e) (MkState vs ds r i u)) with (run* v := get_dict d (MkState vs ds r i u) in run* w := get_dict e (MkState vs ds r i u) in Ret (@None value, upd_dict d (add_missing v w) (MkState vs ds r i u))).
  unfold get_dict. cbn [dicts]. rewrite A, B. reflexivity. Qed.
Definition lits (l : list (string * string)) : kwdict := map (fun kv => (fst kv, lit (snd kv))) l.
Lemma print_runs c d i p q s : dget String.eqb "profile" d = Some p ->
  exec c g_GenericMatcher (st [] (ddel String.eqb "profile" (add_missing d (lits (match profile_of (render p) with Some l => l | None => [] end)))) None i false) = Ret (Some (Text q), s) ->
  exists s1, exec c g_SetPrintOptionsMatcher (st [] d None i false) = Ret (Some (Text q), s1).
Proof.
  intros P. unfold profile_of.
  assert (L : forall l, NoDup (map fst l) -> dget String.eqb "profile" (add_missing d (lits l)) = Some p).
  { intros l N. rewrite missing_get; [rewrite P; reflexivity|]. unfold dkeys, lits. rewrite map_map. exact N. }
  destruct (String.eqb (render p) """""""default""""""") eqn:A; [|destruct (String.eqb (render p) """""""short""""""") eqn:B; [|destruct (String.eqb (render p) """""""full""""""") eqn:C]];
   (intros Q; match type of Q with exec _ _ (st _ (ddel _ _ (add_missing _ (lits ?l))) _ _ _) = _ => assert (X : dget String.eqb "profile" (add_missing d (lits l)) = Some p) by (apply L; cbn; repeat (constructor; [notin|]); constructor) end;
    cbn [lits map fst snd] in X, Q; eexists; opened g_SetPrintOptionsMatcher; unfold st;
    eapply r_seq; [eapply r_choose_yes; [go|]; eapply r_seq; [go|]; eapply r_seq; [go|]; eapply r_seq; [eapply r_missing; [finds|finds|puts]|]; eapply r_seq; [eapply r_do; go|]; go|]; last_call Q).
Qed.
Lemma print_plain c d i q s : dget String.eqb "profile" d = None -> exec c g_GenericMatcher (st [] d None i false) = Ret (Some (Text q), s) ->
  exists s1, exec c g_SetPrintOptionsMatcher (st [] d None i false) = Ret (Some (Text q), s1).
Proof. intros P Q. eexists. opened g_SetPrintOptionsMatcher. unfold st. eapply r_seq; [go|]. last_call Q. Qed.
