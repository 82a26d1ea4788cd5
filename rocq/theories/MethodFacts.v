(** Facts for C151. *)
From Verif Require Import PyStr PyStrFacts PyDict PyDictFacts Ast Args ArgsFacts UtilsFile TablesData Generate GenerateData GenerateSym GenerateRel GenerateRows GenericBridge Grammar GrammarSound FlagSpec FlagFacts DatasetSpec DatasetFacts DatasetCalls OutSpec OutFacts LrSpec LrFacts AdamFacts HistFacts MethodSpec.
Opaque api_mapping generators.

(** The name of the API in the state of a method call. *)
Definition says_api (c : ctx) (r : option rope) (a : rope) : Prop := forall vs ds i u, get_paddle_api c (MkState vs ds r i u) = Ret (Text a).
Definition method_piece (w f : string) : rope := (lit "" ++ receiver_piece w ++ lit f)%list.
Lemma method_text w f : render (method_piece w f) = w ++ f.
Proof. unfold method_piece. rewrite render_app, render_app. unfold lit, receiver_piece. rewrite !render_one. reflexivity. Qed.
Ltac with_class R := eapply r_seq; [eapply r_let; [eapply r_format; [go|repeat (eapply r_cons; [first [apply r_class; exact R|go]|]); apply r_nil|eapply format_lit; [vm_compute; reflexivity|fills]]|puts]|].
Lemma function_runs c d r0 i w f : receiver c = Some w -> says_api c r0 (lit f) ->
  exists q s, exec c g_TensorFunc2PaddleFunc (st [] d r0 i false) = Ret (Some (Text q), s) /\ render q = call_on f w (texts (settled c d)).
Proof.
  intros R A. unfold says_api in A. unfold settled, generic_unused, call_on. eexists; eexists; split; [opened g_TensorFunc2PaddleFunc; unfold st; eapply r_seq; [go|]; eapply r_seq; [go|]; with_class R; go|unfold receiver_piece; txo].
Qed.
Lemma attribute_runs c d r0 i w f : says_api c r0 (method_piece w f) ->
  exists q s, exec c g_Func2Attribute (st [] d r0 i false) = Ret (Some (Text q), s) /\ render q = w ++ f.
Proof.
  intros A. unfold says_api in A. eexists; eexists; split; [opened g_Func2Attribute; unfold st; go|rewrite <- method_text; txo].
Qed.
Lemma equal_runs c d r0 i w f : says_api c r0 (method_piece w f) ->
  exists q s, exec c g_EqualMatcher (st [] d r0 i false) = Ret (Some (Text q), s) /\ render q = lines [call_of (w ++ f) (texts (change_rope (row_of c) [] d)) ++ ".item()"].
Proof.
  intros A. unfold says_api in A. eexists; eexists; split; [opened g_EqualMatcher; unfold st; go|rewrite <- (method_text w f); txo].
Qed.
Lemma histc_runs c d r0 i w f : receiver c = Some w -> says_api c r0 (method_piece w f) -> dget String.eqb "input" d = None -> dget String.eqb "out" d = None ->
  exists q s, exec c g_HistcMatcher (st [] d r0 i false) = Ret (Some (Text q), s) /\ render q = call_of (w ++ f) (texts d) ++ ".astype(" ++ w ++ ".dtype)".
Proof.
  intros R A I O. unfold says_api in A. eexists; eexists; split; [opened g_HistcMatcher; unfold st|].
  - eapply r_seq; [eapply r_choose_no; [go|]; eapply r_seq; [eapply r_let; [apply r_class; exact R|puts]|apply r_done]|]. go.
  - rewrite <- (method_text w f). unfold receiver_piece. txo.
Qed.
Lemma r_empty c d (w : kwdict) b vs (ds : dict string kwdict) r i u : dget String.eqb d ds = Some w -> match w with [] => true | _ => false end = b -> eval c (EEmpty d) (MkState vs ds r i u) = Ret (Bool b, MkState vs ds r i u).
Proof. intros A <-. change (eval c (EEmpty d) (MkState vs ds r i u)) with (run* v := get_dict d (MkState vs ds r i u) in Ret (Bool (match v with [] => true | _ => false end), MkState vs ds r i u)). unfold get_dict. cbn [dicts]. rewrite A. reflexivity. Qed.
Lemma type_name c r0 i w : receiver c = Some w -> exists q s, exec c g_TensorTypeMatcher (st [] [] r0 i false) = Ret (Some (Text q), s) /\ render q = "str(" ++ w ++ ".dtype)".
Proof.
  intros R. eexists; eexists; split; [opened g_TensorTypeMatcher; unfold st|].
  - eapply r_seq; [eapply r_choose_yes; [eapply r_empty; [finds|reflexivity]|]; with_class R; apply r_done|]. go.
  - unfold receiver_piece. txo.
Qed.
Lemma type_given c d r0 i w x : receiver c = Some w -> dget String.eqb "dst_type" d = None -> dget String.eqb "dtype" d = Some x ->
  exists q s, exec c g_TensorTypeMatcher (st [] d r0 i false) = Ret (Some (Text q), s) /\ render q = w ++ ".astype(" ++ render x ++ ")".
Proof.
  intros R D X. eexists; eexists; split; [opened g_TensorTypeMatcher; unfold st|].
  - eapply r_seq; [eapply r_choose_no; [eapply r_empty; [finds|destruct d; [discriminate X|reflexivity]]|]; eapply r_seq; [eapply r_choose_no; [go|]; with_class R; apply r_done|apply r_done]|]. go.
  - unfold receiver_piece. txo.
Qed.
(** The answer for a method call. *)
Lemma answer_form n w r strictly b args kwargs t i :
  find (fun r => String.eqb (r_name r) n) api_mapping = Some r -> generator r = Some (strictly, b) -> reads_as n args kwargs t -> undisturbed w ->
  exists c r0, row_of c = r_entry r /\ receiver c = Some w /\
  (forall a f, paddle_api (r_entry r) = Some a -> a <> "" -> segments 0 "" a = [Some ""; None; Some f] -> f <> "" -> says_api c r0 (method_piece w f)) /\
  (forall a, paddle_api (r_entry r) = Some a -> a <> "" -> segments 0 "" a = [Some a] -> says_api c r0 (lit a)) /\
  forall q s, exec c b (st [] (start t) r0 i false) = Ret (Some (Text q), s) -> ~ In (render q) [""; "unchange"; "misidentify"] -> answer n (Some w) args kwargs i = Some (Ret (Converted q (utils s))).
Proof.
  intros F G R U. exists (context_of r strictly (Some w)), (initial_api (context_of r strictly (Some w))). split; [reflexivity|]. split; [reflexivity|]. split; [|split].
  - intros a f A Na Sg Nf vs ds i' u.
    assert (I : initial_api (context_of r strictly (Some w)) = Some (method_piece w f)).
    { unfold initial_api. cbn [receiver context_of row_of]. rewrite A, Sg. apply String.eqb_neq in Na. rewrite Na. cbn [flat_map]. rewrite (through_plain w U). unfold method_piece. rewrite List.app_nil_r. reflexivity. }
    unfold get_paddle_api. cbn [strict context_of row_of self_api]. rewrite A, Bool.andb_false_r, I, method_text.
    destruct (String.eqb_spec (w ++ f) "") as [X|_]; [|reflexivity]. exfalso. apply Nf. destruct w; [exact X|discriminate X].
  - intros a A Na Sg vs ds i' u.
    assert (I : initial_api (context_of r strictly (Some w)) = Some (lit a)).
    { unfold initial_api. cbn [receiver context_of row_of]. rewrite A, Sg. apply String.eqb_neq in Na. rewrite Na. cbn [flat_map]. rewrite List.app_nil_r. reflexivity. }
    unfold get_paddle_api. cbn [strict context_of row_of self_api]. rewrite A, Bool.andb_false_r, I. unfold lit at 1. rewrite render_one. apply String.eqb_neq in Na. cbn [content]. rewrite Na. reflexivity.
  - intros q s E T. destruct R as (r' & F' & R). rewrite F in F'. injection F' as <-. unfold answer. rewrite F, G. unfold paddle_nodes. rewrite R. cbn [fst snd].
    rewrite generate_ends, E. unfold ends, finish. rewrite then_ret.
    destruct (String.eqb_spec (render q) "misidentify") as [X|_]; [exfalso; apply T; rewrite X; cbn; tauto|].
    destruct (String.eqb_spec (render q) "unchange") as [X|_]; [exfalso; apply T; rewrite X; cbn; tauto|].
    destruct (String.eqb_spec (render q) "") as [X|_]; [exfalso; apply T; rewrite X; cbn; tauto|]. reflexivity.
Qed.
Lemma no_word h s : mem_char h s = true -> (h = "(" \/ h = ".")%char -> ~ In s [""; "unchange"; "misidentify"].
Proof. intros M [->| ->] [<-|[<-|[<-|[]]]]; discriminate M. Qed.
