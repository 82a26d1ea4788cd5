(** Facts for C142. *)
From Verif Require Import PyStr PyStrFacts PyDict PyDictFacts Ast Args ArgsFacts UtilsFile TablesData Generate GenerateData GenerateSym GenerateRel GenerateRows Args GenericBridge FlagSpec FlagFacts DatasetSpec DatasetFacts DatasetCalls OutSpec OutFacts LrSpec LrFacts.
Opaque api_mapping generators.

(** The general rule for calls without an argument that it treats specially. *)
Definition settled (c : ctx) (d : kwdict) : kwdict := add_missing (change_rope (row_of c) generic_unused d) (default_ropes (row_of c)).
Lemma generic_call c d i u x : api_known c None x ->
  dget String.eqb "dtype" (settled c d) = None -> dget String.eqb "pin_memory" (settled c d) = None ->
  dget String.eqb "requires_grad" (settled c d) = None -> dget String.eqb "out" (settled c d) = None ->
  exists q s, exec c g_GenericMatcher (st [] d None i u) = Ret (Some (Text q), s) /\ render q = call_of x (texts (settled c d)).
Proof.
  intros A D P G O. unfold api_known in A. unfold settled, generic_unused in *. eexists; eexists. split; [opened g_GenericMatcher; unfold st; go|]. txo.
Qed.
Lemma unused_free e unuse d : (forall k, In k unuse -> ~ In k (dkeys d)) -> change_rope e unuse d = change_rope e [] d.
Proof.
  unfold change_rope. match goal with |- _ -> fold_left ?f d ?z = fold_left ?g d _ => enough (H : forall d, (forall k, In k unuse -> ~ In k (dkeys d)) -> forall a, fold_left f d a = fold_left g d a) by (intros F; apply H; exact F) end. clear d.
  induction d as [|[k v] d IH]; intros F acc; [reflexivity|].
  cbn [fold_left fst snd]. assert (M : mem_str k unuse = false) by (apply mem_str_false; intros M; exact (F k M (or_introl eq_refl))).
  rewrite M. cbn [mem_str existsb]. apply IH. intros j I J. exact (F j I (or_intror J)).
Qed.
Lemma r_do c e s v s1 : eval c e s = Ret (v, s1) -> step c (SDo e) s = Ret (None, s1).
Proof. intros A. rewrite st_do, A. reflexivity. Qed.
Definition with_betas (b : rope) (d : kwdict) : kwdict :=
  ddel String.eqb "betas" (dset String.eqb "beta2" (MkPiece [] "" :: b ++ [MkPiece [] "[1]"])%list (dset String.eqb "beta1" (MkPiece [] "" :: b ++ [MkPiece [] "[0]"])%list d)).
Lemma adam_runs c d i q s : 
  exec c g_GenericMatcher (st [] (match dget String.eqb "betas" d with Some b => with_betas b d | None => d end) None i false) = Ret (Some (Text q), s) ->
  exists s1, exec c g_OptimAdamMatcher (st [] d None i false) = Ret (Some (Text q), s1).
Proof.
  destruct (dget String.eqb "betas" d) as [b|] eqn:B; intros Q; eexists; opened g_OptimAdamMatcher; unfold st.
  - eapply r_seq; [eapply r_choose_yes; [go|]; eapply r_seq; [go|]; eapply r_seq; [go|]; eapply r_seq; [eapply r_do; go|]; go|]. last_call Q.
  - eapply r_seq; [go|]. last_call Q.
Qed.

(** An answer with a bracket is taken as it is. *)
Lemma answer_call n r strictly b args kwargs t i :
  find (fun r => String.eqb (r_name r) n) api_mapping = Some r -> generator r = Some (strictly, b) ->
  reads_as n args kwargs t ->
  exists c, row_of c = r_entry r /\ (forall x, paddle_api (r_entry r) = Some x -> api_known c None x) /\
  forall q s, exec c b (st [] (start t) None i false) = Ret (Some (Text q), s) -> mem_char "(" (render q) = true ->
    answer n None args kwargs i = Some (Ret (Converted q (utils s))).
Proof.
  intros F G R. exists (context_of r strictly None). split; [reflexivity|]. split.
  { intros x P vs ds i' u. unfold get_paddle_api, context_of. cbn [strict row_of self_api]. rewrite P, Bool.andb_false_r. reflexivity. }
  intros q s E T.
  destruct R as (r' & F' & R). rewrite F in F'. injection F' as <-. unfold answer. rewrite F, G. unfold paddle_nodes. rewrite R. cbn [fst snd].
  rewrite generate_ends. unfold initial_api. cbn [receiver context_of].
  rewrite E. unfold ends, finish. rewrite then_ret.
  destruct (String.eqb_spec (render q) "misidentify") as [X|_]; [rewrite X in T; discriminate|].
  destruct (String.eqb_spec (render q) "unchange") as [X|_]; [rewrite X in T; discriminate|].
  destruct (String.eqb_spec (render q) "") as [X|_]; [rewrite X in T; discriminate|]. reflexivity.
Qed.
Lemma call_bracket x l : mem_char "(" (call_of x l) = true.
Proof. unfold call_of. rewrite mem_char_app, mem_char_app. cbn. apply Bool.orb_true_r. Qed.

(** No argument of a name that is neither given nor new. *)
Lemma settled_absent c ren d t dropped new k : renamed_as ren (texts d) (texts (change_rope (row_of c) [] d)) -> made_of (texts d) t dropped new ->
  (forall j, In j generic_unused -> ~ In j (dkeys d)) -> ~ In k (map snd ren) -> ~ In k (map fst new) -> (forall v, ~ In (Some k, v) t) ->
  NoDup (dkeys (default_ropes (row_of c))) -> ~ In k (dkeys (default_ropes (row_of c))) ->
  dget String.eqb k (settled c d) = None.
Proof.
  intros [Nr R] [N M] U K1 K2 K3 Nd K4. unfold settled. rewrite unused_free by exact U. rewrite missing_get by exact Nd.
  destruct (dget String.eqb k (change_rope (row_of c) [] d)) as [r|] eqn:E.
  - exfalso. assert (I : In (k, render r) (texts (change_rope (row_of c) [] d))) by (apply in_texts; [rewrite <- texts_keys; exact Nr|exists r; split; [exact E|reflexivity]]).
    apply R in I as (j & I & Q). unfold called in Q. destruct (dget String.eqb j ren) as [n|] eqn:J.
    + subst n. apply K1. apply (dget_some_in _ String.eqb_spec) in J. apply in_map_iff. exists (j, k). split; [reflexivity|exact J].
    + subst j. apply M in I as [I|(_ & _ & I)]; [|exact (K3 _ I)]. apply K2. apply in_map_iff. exists (k, render r). split; [reflexivity|exact I].
  - apply (dget_none_iff _ String.eqb_spec). exact K4.
Qed.
