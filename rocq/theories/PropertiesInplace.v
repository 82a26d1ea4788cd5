(** C150: comparisons in place. *)
From Verif Require Import PyStr PyStrFacts PyDict PyDictFacts Ast Args ArgsFacts UtilsFile TablesData Generate GenerateData GenerateSym GenerateRel GenerateRows GenericBridge Grammar GrammarSound FlagSpec FlagFacts DatasetSpec DatasetFacts DatasetCalls OutSpec OutFacts LrSpec LrFacts PropertiesLr HistFacts InplaceSpec.
Opaque api_mapping generators.

Lemma r_convert c k b vs ds r i u : mem_str k (convert_tensor c) = b -> eval c (EConvert k) (MkState vs ds r i u) = Ret (Bool b, MkState vs ds r i u).
Proof. intros <-. reflexivity. Qed.
(** The name of a method, with the receiver. *)
Definition on_piece (w f : string) : rope := (lit "" ++ receiver_piece w ++ lit f)%list.
Lemma on_piece_text w f : render (on_piece w f) = w ++ f.
Proof. unfold on_piece. rewrite render_app, render_app. unfold lit, receiver_piece. rewrite !render_one. reflexivity. Qed.
Definition method_known (c : ctx) (r : option rope) (w f : string) : Prop := forall vs ds i u, get_paddle_api c (MkState vs ds r i u) = Ret (Text (on_piece w f)).
Ltac classy R := repeat (eapply r_cons; [first [apply r_class; exact R|go]|]); apply r_nil.
Lemma with_operand c d r0 i w f b x : receiver c = Some w -> method_known c r0 w ("." ++ f) -> mem_str "other" (convert_tensor c) = b -> dget String.eqb "other" d = Some x ->
  exists q s, exec c g_TensorInplaceReserveTypeMatcher (st [] d r0 i false) = Ret (Some (Text q), s) /\
    render q = in_place w f (texts (dset String.eqb "y" (if b then MkPiece [] "paddle.to_tensor(" :: x ++ [MkPiece [] ")"] else x)%list (ddel String.eqb "other" d))).
Proof.
  intros R A C X. unfold method_known in A. unfold in_place. destruct b; (eexists; eexists; split;
   [opened g_TensorInplaceReserveTypeMatcher; unfold st; eapply r_seq; [go|];
    eapply r_seq; [eapply r_choose_yes; [go|]; eapply r_seq; [go|];
      eapply r_seq; [first [eapply r_choose_yes; [apply r_convert; exact C|]; go | eapply r_choose_no; [apply r_convert; exact C|]; go]|go]|];
    eapply r_seq; [eapply r_let; [eapply r_format; [go|classy R|eapply format_lit; [vm_compute; reflexivity|fills]]|puts]|]; go
   |rewrite <- (on_piece_text w ("." ++ f)); unfold receiver_piece; txo]).
Qed.
Lemma without_operand c d r0 i w f : receiver c = Some w -> method_known c r0 w ("." ++ f) -> dget String.eqb "other" d = None ->
  exists q s, exec c g_TensorInplaceReserveTypeMatcher (st [] d r0 i false) = Ret (Some (Text q), s) /\ render q = in_place w f (texts d).
Proof.
  intros R A X. unfold method_known in A. unfold in_place. eexists; eexists; split;
   [opened g_TensorInplaceReserveTypeMatcher; unfold st; eapply r_seq; [go|]; eapply r_seq; [go|];
    eapply r_seq; [eapply r_let; [eapply r_format; [go|classy R|eapply format_lit; [vm_compute; reflexivity|fills]]|puts]|]; go
   |rewrite <- (on_piece_text w ("." ++ f)); unfold receiver_piece; txo].
Qed.
(** The answer for a method. *)
Lemma answer_method n w r strictly b args kwargs t i f :
  find (fun r => String.eqb (r_name r) n) api_mapping = Some r -> generator r = Some (strictly, b) -> reads_as n args kwargs t ->
  undisturbed w -> (exists a, paddle_api (r_entry r) = Some a /\ a <> "" /\ segments 0 "" a = [Some ""; None; Some ("." ++ f)]) ->
  exists c r0, receiver c = Some w /\ method_known c r0 w ("." ++ f) /\ convert_tensor c = match dget String.eqb n convert_tensors with Some l => l | None => [] end /\
  forall q s y, exec c b (st [] (start t) r0 i false) = Ret (Some (Text q), s) -> render q = String nl y -> answer n (Some w) args kwargs i = Some (Ret (Converted q (utils s))).
Proof.
  intros F G R U (a & A & Na & Sg). exists (context_of r strictly (Some w)), (initial_api (context_of r strictly (Some w))). split; [reflexivity|].
  assert (I : initial_api (context_of r strictly (Some w)) = Some (on_piece w ("." ++ f))).
  { unfold initial_api. cbn [receiver context_of row_of]. rewrite A, Sg. apply String.eqb_neq in Na. rewrite Na. cbn [flat_map]. rewrite (through_plain w U). unfold on_piece. rewrite List.app_nil_r. reflexivity. }
  split.
  { intros vs ds i' u. unfold get_paddle_api. cbn [strict context_of row_of self_api]. rewrite A, Bool.andb_false_r, I, on_piece_text.
    destruct (String.eqb_spec (w ++ "." ++ f) "") as [X|_]; [destruct w; discriminate X|reflexivity]. }
  split; [pose proof (find_some _ _ F) as [_ E]; apply String.eqb_eq in E; subst n; reflexivity|].
  intros q s y E T.
  destruct R as (r' & F' & R). rewrite F in F'. injection F' as <-. unfold answer. rewrite F, G. unfold paddle_nodes. rewrite R. cbn [fst snd].
  rewrite generate_ends, E. unfold ends, finish. rewrite then_ret, T. reflexivity.
Qed.
Lemma comparison_row n f b : In (n, (f, b)) comparisons ->
  exists s r, find (fun r => String.eqb (r_name r) n) api_mapping = Some r /\ generator r = Some (s, g_TensorInplaceReserveTypeMatcher) /\ unsupport_args (r_entry r) = [] /\
    (exists a, paddle_api (r_entry r) = Some a /\ a <> "" /\ segments 0 "" a = [Some ""; None; Some ("." ++ f)]) /\
    mem_str "other" (match dget String.eqb n convert_tensors with Some l => l | None => [] end) = b.
Proof.
  intros I. unfold comparisons in I.
  repeat (destruct I as [I|I]; [injection I as <- <- <-; row_found; split; [reflexivity|]; split; [eexists; split; [reflexivity|]; split; [discriminate|vm_compute; reflexivity]|vm_compute; reflexivity]|]). destruct I.
Qed.
Theorem C150_comparison :
  forall n f b w args kwargs t v i,
    In (n, (f, b)) comparisons -> undisturbed w -> reads_as n args kwargs t -> passes t "other" v ->
    exists q u l, answer n (Some w) args kwargs i = Some (Ret (Converted q u)) /\ render q = in_place w f l /\ made_of l t ["other"] [("y", operand b v)].
Proof.
  intros n f b w args kwargs t v i I U R P. destruct (comparison_row n f b I) as (s & r & Fr & G & Us & A & C).
  pose proof (known_star _ r args kwargs t Fr Us R) as S. pose proof (keys_once _ args kwargs t R S) as N.
  destruct (answer_method n w r s _ args kwargs t i f Fr G R U A) as (c & r0 & Rc & M & Cv & H). rewrite <- Cv in C.
  destruct (with_operand c (start t) r0 i w f b _ Rc M C (got _ args kwargs t R "other" v ltac:(discriminate) P)) as (q & s1 & B & W).
  exists q, (utils s1). eexists. split; [eapply H; [exact B|rewrite W; reflexivity]|]. split; [exact W|].
  match goal with |- made_of ?l ?t _ _ => eassert (K : made_of l t _ _) by made end. cbn [app] in K.
  replace (operand b v) with (render (if b then MkPiece [] "paddle.to_tensor(" :: [MkPiece [Argument "other"] v] ++ [MkPiece [] ")"] else [MkPiece [Argument "other"] v])%list); [exact K|].
  unfold operand. destruct b; [txo|apply render_one].
Qed.
Print Assumptions C150_comparison.
Theorem C150_negation :
  forall w args kwargs t i,
    undisturbed w -> reads_as "torch.Tensor.logical_not_" args kwargs t ->
    exists q u, answer "torch.Tensor.logical_not_" (Some w) args kwargs i = Some (Ret (Converted q u)) /\ render q = in_place w "logical_not_" [].
Proof.
  intros w args kwargs t i U R.
  assert (J : exists s r, find (fun r => String.eqb (r_name r) "torch.Tensor.logical_not_") api_mapping = Some r /\ generator r = Some (s, g_TensorInplaceReserveTypeMatcher) /\ unsupport_args (r_entry r) = [] /\
    (exists a, paddle_api (r_entry r) = Some a /\ a <> "" /\ segments 0 "" a = [Some ""; None; Some ".logical_not_"]) /\ (position_args (r_entry r) ++ args_list (r_entry r) ++ overload_args_list (r_entry r))%list = []).
  { row_found. split; [reflexivity|]. split; [eexists; split; [reflexivity|]; split; [discriminate|vm_compute; reflexivity]|vm_compute; reflexivity]. }
  destruct J as (s & r & Fr & G & Us & A & K). pose proof (known_star _ r args kwargs t Fr Us R) as S.
  assert (E : t = []).
  { destruct t as [|[[k|] v] t]; [reflexivity| |exfalso; exact (S v (or_introl eq_refl))]. exfalso. refine (unknown _ r args kwargs _ Fr Us R k v _ (or_introl eq_refl)). rewrite K. reflexivity. }
  subst t. destruct (answer_method _ w r s _ args kwargs [] i "logical_not_" Fr G R U A) as (c & r0 & Rc & M & _ & H).
  destruct (without_operand c (start []) r0 i w "logical_not_" Rc M eq_refl) as (q & s1 & B & W).
  exists q, (utils s1). split; [eapply H; [exact B|rewrite W; reflexivity]|exact W].
Qed.
Print Assumptions C150_negation.
Transparent api_mapping generators.
Example C150_nonvacuous :
  (In ("torch.Tensor.ge_", ("greater_equal_", true)) comparisons /\ undisturbed "a.b[0]" /\ exists t, reads_as "torch.Tensor.ge_" [MkExpr false false "3"] [] t /\ passes t "other" "3") /\
  (exists t, reads_as "torch.Tensor.logical_not_" [] [] t).
Proof.
  split; [split; [unfold comparisons; cbn; tauto|split; [reflexivity|]]|].
  - eexists. split; [eexists; split; vm_compute; reflexivity|there].
  - eexists. eexists; split; vm_compute; reflexivity.
Qed.
