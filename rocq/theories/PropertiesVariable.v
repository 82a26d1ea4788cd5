(** C149: torch.autograd.Variable. *)
From Coq Require Import Lia.
From Verif Require Import PyStr PyStrFacts PyDict PyDictFacts Ast Args ArgsFacts UtilsFile TablesData Generate GenerateData GenerateRel GenerateRows GenericBridge FlagSpec FlagFacts DatasetSpec DatasetFacts DatasetCalls OutSpec OutFacts LrSpec LrFacts PropertiesLr VariableSpec.
Opaque api_mapping generators.

Lemma variable_flag c d i x r : dget String.eqb "data" d = Some x -> dget String.eqb "requires_grad" d = Some r ->
  exists q s, exec c g_ADVariableMatcher (st [] d None i false) = Ret (Some (Text q), s) /\ render q = written Flagged (render x) (render r).
Proof.
  intros X R. unfold written. eexists; eexists; split; [opened g_ADVariableMatcher; unfold st; go|txo].
Qed.
Lemma variable_plain c d i x : dget String.eqb "data" d = Some x -> dget String.eqb "requires_grad" d = None ->
  exists s, exec c g_ADVariableMatcher (st [] d None i false) = Ret (Some (Text x), s).
Proof. intros X R. eexists. opened g_ADVariableMatcher; unfold st; go. Qed.
Lemma variable_row : exists s r, find (fun r => String.eqb (r_name r) "torch.autograd.Variable") api_mapping = Some r /\ generator r = Some (s, g_ADVariableMatcher) /\ unsupport_args (r_entry r) = [].
Proof. row_found. reflexivity. Qed.
Theorem C149_flag :
  forall args kwargs t x r i,
    reads_as "torch.autograd.Variable" args kwargs t -> passes t "data" x -> passes t "requires_grad" r ->
    exists q u, answer "torch.autograd.Variable" None args kwargs i = Some (Ret (Converted q u)) /\ render q = written Flagged x r.
Proof.
  intros args kwargs t x r i R X P. destruct variable_row as (s & e & Fr & G & U).
  destruct (answer_line _ e s _ args kwargs t i Fr G R) as (c & _ & _ & H).
  destruct (variable_flag c (start t) i _ _ (got _ args kwargs t R "data" x ltac:(discriminate) X) (got _ args kwargs t R "requires_grad" r ltac:(discriminate) P)) as (q & s1 & B & W).
  rewrite !render_one in W. cbn [content] in W. exists q, (utils s1). split; [eapply H; [exact B|rewrite W; reflexivity]|exact W].
Qed.
Print Assumptions C149_flag.
Theorem C149_plain :
  forall args kwargs t x i,
    reads_as "torch.autograd.Variable" args kwargs t -> passes t "data" x -> (forall r, ~ passes t "requires_grad" r) ->
    ~ In x [""; "unchange"; "misidentify"] ->
    exists q u, answer "torch.autograd.Variable" None args kwargs i = Some (Ret (Converted q u)) /\ forall r, render q = written Plain x r.
Proof.
  intros args kwargs t x i R X P O. destruct variable_row as (s & e & Fr & G & U). pose proof (known_star _ e args kwargs t Fr U R) as S.
  destruct R as (r' & F' & R'). assert (R : reads_as "torch.autograd.Variable" args kwargs t) by (exists r'; split; assumption).
  destruct (variable_plain (context_of e s None) (start t) i _ (got _ args kwargs t R "data" x ltac:(discriminate) X) (not_got _ args kwargs t R S "requires_grad" P)) as (s1 & B).
  exists [MkPiece [Argument "data"] x], (utils s1). split; [|intros r; apply render_one].
  rewrite Fr in F'. injection F' as <-. unfold answer. rewrite Fr, G. unfold paddle_nodes. rewrite R'. cbn [fst snd].
  rewrite generate_ends. unfold initial_api. cbn [receiver context_of].
  rewrite B. unfold ends, finish. rewrite then_ret, render_one. cbn [content].
  destruct (String.eqb_spec x "misidentify") as [E|_]; [exfalso; apply O; subst; cbn; tauto|].
  destruct (String.eqb_spec x "unchange") as [E|_]; [exfalso; apply O; subst; cbn; tauto|].
  destruct (String.eqb_spec x "") as [E|_]; [exfalso; apply O; subst; cbn; tauto|]. reflexivity.
Qed.
Print Assumptions C149_plain.
Lemma put_same n b h : n < List.length h -> nth_error (put n b h) n = Some b.
Proof. revert n. induction h as [|a h IH]; intros [|n] L; cbn in *; try lia; [reflexivity|]. apply IH. lia. Qed.
Lemma put_other n m b h : n <> m -> nth_error (put n b h) m = nth_error h m.
Proof. revert n m. induction h as [|a h IH]; intros [|n] [|m] L; cbn in *; try reflexivity; try congruence. apply IH. congruence. Qed.
Lemma put_length n b h : List.length (put n b h) = List.length h.
Proof. revert n. induction h as [|a h IH]; intros [|n]; cbn; auto. Qed.
(** For data with a name the value has the flag asked for, and no other object changes. *)
Theorem C149_named :
  forall n b h, n < List.length h -> stops (run Flagged (Named n) b h) = Some (negb b) /\
    forall m, m <> n -> nth_error (snd (run Flagged (Named n) b h)) m = nth_error h m.
Proof. intros n b h L. split; [apply put_same; exact L|]. intros m N. apply put_other. congruence. Qed.
Print Assumptions C149_named.
(** But for a call the flag is set on an object that is lost: the value never requires gradients. *)
Theorem C149_made_refuted : forall b h, stops (run Flagged Made b h) = Some true.
Proof.
  intros b h. unfold stops, run. cbn. rewrite nth_error_app2 by reflexivity. rewrite PeanoNat.Nat.sub_diag. reflexivity.
Qed.
Print Assumptions C149_made_refuted.
(** And the value is the data itself, no new variable: the flag of the data changes, and without a flag a parameter stays one. *)
Theorem C149_alias_refuted :
  forall n h s, nth_error h n = Some s ->
    (forall b, fst (run Flagged (Named n) b h) = n /\ (s = b -> nth_error (snd (run Flagged (Named n) b h)) n <> Some s)) /\
    (forall b, stops (run Plain (Named n) b h) = Some s).
Proof.
  intros n h s E. assert (L : n < List.length h) by (apply nth_error_Some; rewrite E; discriminate). split.
  - intros b. split; [reflexivity|]. intros -> X. change (nth_error (put n (negb b) h) n = Some b) in X. rewrite (put_same n (negb b) h L) in X. destruct b; discriminate X.
  - intros b. exact E.
Qed.
Print Assumptions C149_alias_refuted.
Transparent api_mapping generators.
Example C149_nonvacuous :
  (exists t, reads_as "torch.autograd.Variable" [MkExpr false false "torch.rand(3)"] [MkKw (Some "requires_grad") (MkExpr false false "True")] t /\ passes t "data" "torch.rand(3)" /\ passes t "requires_grad" "True") /\
  (exists t, reads_as "torch.autograd.Variable" [MkExpr false false "y"] [] t /\ passes t "data" "y" /\ (forall r, ~ passes t "requires_grad" r) /\ ~ In "y" [""; "unchange"; "misidentify"]) /\
  stops (run Flagged (Named 1) true [true; true; false]) = Some false /\ stops (run Flagged Made true [true; true; false]) = Some true.
Proof.
  split; [|split; [|split; reflexivity]].
  - eexists. split; [eexists; split; vm_compute; reflexivity|]. split; there.
  - eexists. split; [eexists; split; vm_compute; reflexivity|]. split; [there|]. split; [nowhere|notin].
Qed.
