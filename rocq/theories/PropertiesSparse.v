(** C157: sums of sparse tensors. *)
From Verif Require Import PyStr PyStrFacts PyDict PyDictFacts Ast Args ArgsFacts UtilsFile TablesData Generate GenerateData GenerateRel GenerateRows GenericBridge FlagSpec FlagFacts DatasetSpec DatasetFacts DatasetCalls OutSpec OutFacts LrSpec LrFacts PropertiesLr AdamFacts FlashSpec FlashFacts PropertiesFlash SparseSpec.
Opaque api_mapping generators.

(** A generator that gives up. *)
Lemma answer_none n r strictly b args kwargs t i :
  find (fun r => String.eqb (r_name r) n) api_mapping = Some r -> generator r = Some (strictly, b) -> reads_as n args kwargs t ->
  (forall c, exists s, exec c b (st [] (start t) None i false) = Ret (Some NoneV, s)) -> answer n None args kwargs i = Some (Ret Refused).
Proof.
  intros F G R X. destruct R as (r' & F' & R). rewrite F in F'. injection F' as <-. unfold answer. rewrite F, G. unfold paddle_nodes. rewrite R. cbn [fst snd].
  rewrite generate_ends. unfold initial_api. cbn [receiver context_of]. destruct (X (context_of r strictly None)) as (s & E). unfold context_of in E |- *. rewrite E. reflexivity.
Qed.
Notation sum := "torch.sparse.sum".
Lemma r_or_yes c a b s s1 : eval c a s = Ret (Bool true, s1) -> eval c (EOr a b) s = Ret (Bool true, s1).
Proof. intros A. change (eval c (EOr a b) s) with (run* (v, s) := eval c a s in if truth v then Ret (v, s) else eval c b s). rewrite A. reflexivity. Qed.
Lemma r_or_no c a b s s1 o : eval c a s = Ret (Bool false, s1) -> eval c b s1 = o -> eval c (EOr a b) s = o.
Proof. intros A B. change (eval c (EOr a b) s) with (run* (v, s) := eval c a s in if truth v then Ret (v, s) else eval c b s). rewrite A. exact B. Qed.
Lemma r_seq_return c t r s s1 v : step c t s = Ret (Some v, s1) -> exec c (Seq t r) s = Ret (Some v, s1).
Proof. intros A. rewrite ex_seq, A. reflexivity. Qed.
Lemma sum_refused c d i : match dget String.eqb "dim" d with Some v => contains "None" (render v) = true | None => True end ->
  exists s, exec c g_RequireDimMatcher (st [] d None i false) = Ret (Some NoneV, s).
Proof.
  destruct (dget String.eqb "dim" d) as [v|] eqn:V; intros H; eexists; opened g_RequireDimMatcher; unfold st.
  - eapply r_seq_return. eapply r_choose_yes; [eapply r_or_no; [go|eapply r_test; [go|exact H]]|]. go.
  - eapply r_seq_return. eapply r_choose_yes; [eapply r_or_yes; go|]. go.
Qed.
Lemma sum_runs c d i v q s : dget String.eqb "dim" d = Some v -> contains "None" (render v) = false ->
  exec c g_GenericMatcher (st [] d None i false) = Ret (Some (Text q), s) -> exists s1, exec c g_RequireDimMatcher (st [] d None i false) = Ret (Some (Text q), s1).
Proof.
  intros V H Q. eexists; opened g_RequireDimMatcher; unfold st. eapply r_seq; [eapply r_choose_no; [eapply r_or_no; [go|eapply r_test; [go|exact H]]|]; apply r_done|]. last_call Q.
Qed.

(** Without an axis, or with one whose text mentions None, the call is left to the user. *)
Theorem C157_refused :
  forall args kwargs t i,
    reads_as sum args kwargs t -> (forall v, ~ In (None, v) t) -> (forall v, passes t "dim" v -> mentions v "None") ->
    answer sum None args kwargs i = Some (Ret Refused).
Proof.
  intros args kwargs t i R S P.
  assert (J : exists s r, find (fun r => String.eqb (r_name r) sum) api_mapping = Some r /\ generator r = Some (s, g_RequireDimMatcher)) by (eexists; eexists; split; vm_compute; reflexivity).
  destruct J as (s & r & Fr & G). apply (answer_none _ r s _ args kwargs t i Fr G R). intros c. apply sum_refused.
  destruct (dget String.eqb "dim" (start t)) as [v|] eqn:V; [|exact I].
  apply (dget_some_in _ String.eqb_spec) in V. assert (T : In ("dim", render v) (texts (start t))) by (unfold texts; apply (in_map (fun kv => (fst kv, render (snd kv)))) in V; exact V).
  apply (member_start _ _ _ S) in T. apply P in T. apply contains_spec. exact T.
Qed.
Print Assumptions C157_refused.
Theorem C157_sum :
  forall args kwargs t v i,
    reads_as sum args kwargs t -> (forall v, ~ In (None, v) t) -> free_of t sum_foreign -> passes t "dim" v -> ~ mentions v "None" ->
    exists q u m l, answer sum None args kwargs i = Some (Ret (Converted q u)) /\ render q = call_of "paddle.sparse.sum" l /\ made_of m t [] [] /\ renamed_as sum_names m l.
Proof.
  intros args kwargs t v i R S F P O.
  assert (J : exists s r, find (fun r => String.eqb (r_name r) sum) api_mapping = Some r /\ generator r = Some (s, g_RequireDimMatcher) /\
    paddle_api (r_entry r) = Some "paddle.sparse.sum" /\ kwargs_change (r_entry r) = renaming_of sum_names /\ paddle_default_kwargs (r_entry r) = []) by (row_found; repeat split; reflexivity).
  destruct J as (s & r & Fr & G & A & C & D). pose proof (keys_once _ args kwargs t R S) as N. destruct (answer_call _ r s _ args kwargs t i Fr G R) as (c & E & Q & H).
  pose proof (made_start t N S) as M.
  assert (K : forall k, In k sum_foreign -> ~ In k (dkeys (start t))) by (apply (made_fresh (start t) t [] [] sum_foreign M F); intros k _ []).
  assert (U : forall k, In k generic_unused -> ~ In k (dkeys (start t))) by (intros k J; apply K; unfold generic_unused in J; unfold sum_foreign; cbn [In] in *; tauto).
  assert (Z : renamed_as sum_names (texts (start t)) (texts (change_rope (row_of c) [] (start t)))).
  { apply renamed_texts; [rewrite E; exact C|unfold sum_names; easy_lists|unfold sum_names; distinct|exact N|].
    intros x J. apply K. unfold sum_names in J. unfold sum_foreign. destruct J as [<-|[<-|[]]]; cbn [In snd]; tauto. }
  assert (X : forall k, In k ["dtype"; "pin_memory"; "requires_grad"; "out"] -> dget String.eqb k (settled c (start t)) = None).
  { intros k J. assert (L : In k sum_foreign) by (unfold sum_foreign; cbn [In] in *; tauto). apply (settled_absent c sum_names (start t) t [] []).
    - exact Z.
    - exact M.
    - exact U.
    - unfold sum_names. destruct J as [<-|[<-|[<-|[<-|[]]]]]; notin.
    - intros [].
    - intros w. exact (F k w L).
    - unfold default_ropes. rewrite E, D. constructor.
    - unfold default_ropes. rewrite E, D. intros []. }
  destruct (generic_call c (start t) i false _ (Q _ A)) as (q & s1 & V & T); [apply X; cbn; tauto|apply X; cbn; tauto|apply X; cbn; tauto|apply X; cbn; tauto|].
  assert (B : contains "None" (render [MkPiece [Argument "dim"] v]) = false) by (rewrite render_one; cbn [content]; destruct (contains "None" v) eqn:B; [|reflexivity]; destruct O; apply contains_spec; exact B).
  destruct (sum_runs c (start t) i _ q s1 (got _ args kwargs t R "dim" v ltac:(discriminate) P) B V) as (s2 & W).
  exists q, (utils s2), (texts (start t)), (texts (settled c (start t))).
  split; [apply H; [exact W|rewrite T; apply call_bracket]|]. split; [exact T|]. split; [exact M|].
  unfold settled, default_ropes. rewrite (unused_free (row_of c) generic_unused (start t) U). rewrite E, D in *. exact Z.
Qed.
Print Assumptions C157_sum.
Transparent api_mapping generators.
Example C157_nonvacuous :
  (exists t, reads_as sum [MkExpr false false "a"] [] t /\ (forall v, ~ In (None, v) t) /\ (forall v, passes t "dim" v -> mentions v "None")) /\
  (exists t, reads_as sum [MkExpr false false "a"; MkExpr false false "1"] [] t /\ (forall v, ~ In (None, v) t) /\ free_of t sum_foreign /\ passes t "dim" "1" /\ ~ mentions "1" "None").
Proof.
  split; (eexists; split; [eexists; split; vm_compute; reflexivity|]).
  - split; [nowhere|]. intros v [H|[]]. discriminate H.
  - split; [nowhere|]. split; [|split; [there|]].
    + intros k v I J. cbn [In] in J. destruct J as [J|[J|[]]]; injection J as <- <-; unfold sum_foreign in I; cbn [In] in I; decompose [or] I; try contradiction; discriminate.
    + intros (a & b & H). destruct a as [|x [|y a]]; discriminate H.
Qed.
