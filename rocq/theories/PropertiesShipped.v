(** The conversion pass with the matchers and the tables that are shipped (C109-C112).
    Python's parser and [astor]'s printer are arbitrary functions. *)
From Coq Require Import ZArith Lia.
From Verif Require Import PyStr PyStrFacts PyDict UtilsFile TablesData Lookup LookupSpec LookupFacts Args ArgsSpec Ast ImportPass ImportSpec ImportFacts Walk BasicPass
  BasicSpec QuietSpec ConvSpec NodeEq Placed EffectSpec GenericSpec Generate GenerateData GenerateRows GenerateSpec RecogniseSpec Shipped ShippedSpec GenerateExact ShippedFacts ShippedCalls ShippedRaise.
From Verif Require PropertiesBasic PropertiesPlaced PropertiesRecognise PropertiesGenerate PropertiesArgs.
Opaque api_mapping attribute_mapping alias_mapping wildcard_mapping matcher_classes torch_package_mapping generators.

(** ** C109 *)
Theorem C109_only_uses_of_apis_change : forall t imps limit root s root' s',
  well_formed root -> basic_transform (shipped_env t imps) limit root s = Ok (root', s') -> conv root root'.
Proof.
  intros t imps limit root s root' s' W H.
  exact (PropertiesBasic.C68_only_expressions_rewritten _ _ _ _ _ _ _ (shipped_deletes_nothing t imps) W H).
Qed.
Print Assumptions C109_only_uses_of_apis_change.
Theorem C109_statements_go_above_their_line : forall t imps limit body rest s,
  reads_expressions (parse t) -> Placed.parsed (Other "Module" (Many "body" body :: rest)) -> scopes s = [] -> records s = [] ->
  PropertiesPlaced.forget (basic_transform (shipped_env t imps) limit (Other "Module" (Many "body" body :: rest)) s)
  = convert_file (shipped_env t imps) limit body rest s.
Proof.
  intros t imps limit body rest s P PA SC RC.
  exact (PropertiesPlaced.C80_statements_go_above_their_line _ _ _ _ _ _ PA (shipped_gives t imps P) (shipped_deletes_nothing t imps) SC RC).
Qed.
Print Assumptions C109_statements_go_above_their_line.

(** ** C110 *)
Theorem C110_calls_are_rewritten_as_the_row_says :
  forall t imps f args kws api a c r name code before last_ x st p line s,
  let e := shipped_env t imps in
  (min_mode t = true -> c <> "ChangePrefixMatcher") -> plain_file e -> plain_use e f -> stands_for e true f (Package api) ->
  get_api_matcher api = LMatcher a c r ->
  new_call t r None args kws (snd (unique_name (name_counters (shared s)) "out")) name code ->
  parse t code = Ok (before ++ [last_])%list -> expression_of last_ x -> In (kind_of x) for_call ->
  parent st = Ok p -> scope_body_index st (scopes s) = Ok line -> (no_room p -> for_the_line e before = []) ->
  NoDup (dkeys (all_apis s)) ->
  exists s', finish_call e f args kws st s = Ok (Reply (VNode x), s') /\
    booked api api name EffectSpec.Converted s s' /\ requested line [ask e p before] s s'.
Proof.
  intros t imps f args kws api a c r name code before last_ x st p line s e MIN PF PU SF L NC PA X K P B R ND.
  destruct (PropertiesRecognise.C82_calls_recognised_exactly _ e f args kws st s PF PU) as (rd & SF' & H).
  rewrite (PropertiesRecognise.C82_one_reading _ _ _ _ _ _ SF' SF) in H. destruct H as (l & _ & H). rewrite H.
  assert (A : forall w, api_of e (MkMatcher a c r (dotted l)) st w = Ok (Some name, [], w)).
  { intros w. exact (proj2 (new_call_noted t api a c r (dotted l) L MIN _ _ _ _ _ _ st w NC)). }
  assert (NE : name <> "") by exact (proj1 (new_call_noted t api a c r (dotted l) L MIN _ _ _ _ _ _ st (shared s) NC)).
  destruct (new_call_nodes t api a c r (dotted l) L MIN args kws st (shared s) name code _ NC PA) as (kws' & w' & C).
  exact (call_rewritten e st p line s api a c r (dotted l) name before last_ x L P B ND NE A X R f args kws kws' w' K C).
Qed.
Print Assumptions C110_calls_are_rewritten_as_the_row_says.

(** Method calls.  [v] is the text of the receiver; a first argument [self] is set aside. *)
Theorem C110_method_calls_are_rewritten_as_the_row_says :
  forall t imps f v nm args kws api a c r name code before last_ x st p line s,
  let e := shipped_env t imps in
  (min_mode t = true -> c <> "ChangePrefixMatcher") -> plain_file e -> plain_use e f -> stands_for e true f (Member api) ->
  source t f = v ++ "." ++ nm -> no_char "."%char nm -> plain_text v ->
  get_api_matcher api = LMatcher a c r ->
  new_call t r (Some v) (shown args) kws (snd (unique_name (name_counters (shared s)) "out")) name code ->
  parse t code = Ok (before ++ [last_])%list -> expression_of last_ x -> In (kind_of x) for_method ->
  parent st = Ok p -> scope_body_index st (scopes s) = Ok line -> (no_room p -> for_the_line e before = []) ->
  NoDup (dkeys (all_apis s)) ->
  exists s', finish_call e f args kws st s = Ok (Reply (VNode (put_back args x)), s') /\
    booked api ("*" ++ method_suffix api) name EffectSpec.Converted s s' /\ requested line [ask e p before] s s'.
Proof.
  intros t imps f v nm args kws api a c r name code before last_ x st p line s e MIN PF PU SF SO NX PV L NC PA X K P B R ND.
  destruct (PropertiesRecognise.C82_calls_recognised_exactly _ e f args kws st s PF PU) as (rd & SF' & H).
  rewrite (PropertiesRecognise.C82_one_reading _ _ _ _ _ _ SF' SF) in H. destruct H as (l & _ & H). rewrite H.
  assert (A : forall w, api_of e (MkMatcher a c r (dotted l)) st w = Ok (Some name, [], w)).
  { intros w. exact (proj2 (new_call_noted t api a c r (dotted l) L MIN _ _ _ _ _ _ st w NC)). }
  assert (NE : name <> "") by exact (proj1 (new_call_noted t api a c r (dotted l) L MIN _ _ _ _ _ _ st (shared s) NC)).
  destruct (new_method_nodes t api a c r (dotted l) L MIN f v nm (shown args) kws st (shared s) name code _ SO NX PV NC PA) as (kws' & w' & C).
  exact (method_rewritten e st p line s api a c r (dotted l) name before last_ x L P B ND NE A X R f args kws kws' w' K C).
Qed.
Print Assumptions C110_method_calls_are_rewritten_as_the_row_says.

(** Such a text exists for every row of these kinds and every call. *)
Lemma called_on_total name recv : exists callee, called_on name recv callee.
Proof.
  destruct recv as [v|]; [|eexists; apply on_function].
  destruct (find (fun c => prefix c name) receiver_classes) as [c|] eqn:F.
  - apply find_some in F as [I F]. apply prefix_spec in F as [rest ->]. eexists. eapply on_receiver; [exact I|reflexivity].
  - eexists. apply on_no_class. intros c rest I ->. pose proof (find_none _ _ F c I) as G. cbv beta in G. rewrite prefix_app in G. discriminate.
Qed.
Theorem C110_every_call_has_a_text : forall t api a c r recv args kws tmp,
  get_api_matcher api = LMatcher a c r -> a <> "torch.torch.int32" -> NoDup (map keyword_name kws) ->
  c = "ChangePrefixMatcher" \/ c = "ChangeAPIMatcher" \/
  (c = "GenericMatcher" /\ r_abstract r = false /\ fits (r_entry r) (exprs_of t args) (keywords_of t kws) /\
   (In a two_for_one -> one_of_two (r_entry r) (exprs_of t args) (keywords_of t kws))) ->
  exists name code, new_call t r recv args kws tmp name code.
Proof.
  intros t api a c r recv args kws tmp L N ND H. pose proof L as L'. apply get_matcher_found in L' as (_ & M & _).
  destruct H as [->|[->|(-> & AB & F & X)]]; destruct (plain_row_of api a _ r _ L M eq_refl) as (_ & I & RN).
  - destruct (shipped_prefix r) as (p & tg & rest & E & D & C); [apply in_or_app; left; exact I|exact M|congruence|].
    destruct (called_on_total (tg ++ "." ++ rest) recv) as [callee CO]. eexists _, _. eapply new_package; eauto.
  - pose proof (row_fact _ r _ rename_rows I M) as K. cbv beta in K. destruct (paddle_api (r_entry r)) as [nm|] eqn:P.
    + destruct (called_on_total nm recv) as [callee CO]. eexists _, _. eapply new_name; eauto.
    + rewrite Bool.andb_false_r in K. discriminate.
  - pose proof (proj1 (forallb_forall _ _) GenericFacts.generic_rows r I) as G. unfold GenericFacts.generic_ok, GenericFacts.is_generic in G. rewrite M, AB in G.
    cbn [String.eqb Ascii.eqb Bool.eqb negb orb] in G. apply andb_prop in G as [_ G].
    destruct (paddle_api (r_entry r)) as [nm|] eqn:P; [|discriminate].
    destruct (called_on_total nm recv) as [callee CO]. eexists _, _. eapply new_arguments; eauto. rewrite RN. exact X.
Qed.
Print Assumptions C110_every_call_has_a_text.

(** The keyword arguments [k=v] of a call. *)
Definition keyword_node (kv : string * node) : node := Other "keyword" [Data "arg" (fst kv); One "value" (snd kv)].
Lemma keyword_read t kv : fst kv <> "None" -> keyword_of t (keyword_node kv) = MkKw (Some (fst kv)) (expr_of t (snd kv)).
Proof.
  destruct kv as [k v]. cbn [fst snd]. intros N. unfold keyword_of, keyword_node, keyword_name. cbn [fst snd]. apply String.eqb_neq in N. rewrite N. reflexivity.
Qed.
(** Every argument goes into the text as it is printed, the keyword arguments behind their
    names. *)
Theorem C110_arguments_are_written_as_they_were : forall t callee dropped args (kws : list (string * node)),
  ~ In "None" (map fst kws) ->
  call_with t callee dropped args (map keyword_node kws)
  = callee ++ "(" ++ String.concat ", "
      (map (fun a => strip_by (fun c => Ascii.eqb c nl) (print t a)) args ++
       map (fun kv => (fst kv ++ "=" ++ strip_by (fun c => Ascii.eqb c nl) (print t (snd kv)))%string)
         (filter (fun kv => negb (mem_str (fst kv) dropped)) kws))%list ++ ")".
Proof.
  intros t callee dropped args kws N. unfold call_with, call. do 2 f_equal. f_equal. f_equal. f_equal.
  - unfold exprs_of. rewrite map_map. apply map_ext. reflexivity.
  - unfold keywords_of. rewrite map_map. induction kws as [|kv kws IH]; [reflexivity|]. cbn [map In] in N |- *. cbn [filter].
    rewrite keyword_read by tauto. cbn [named_in kw_arg]. specialize (IH (fun H => N (or_intror H))).
    destruct (mem_str (fst kv) dropped); cbn [negb map]; rewrite IH; reflexivity.
Qed.
Print Assumptions C110_arguments_are_written_as_they_were.
(** So do they reach the parameters of rows that rename. *)
Theorem C110_arguments_are_read_as_they_were : forall t args (kws : list (string * node)) k v,
  ~ In "None" (map fst kws) -> In (k, v) kws ->
  In (MkKw (Some k) (expr_of t v)) (keywords_of t (map keyword_node kws)) /\
  text (expr_of t v) = strip_by (fun c => Ascii.eqb c nl) (print t v) /\
  map text (exprs_of t args) = map (fun a => strip_by (fun c => Ascii.eqb c nl) (print t a)) args.
Proof.
  intros t args kws k v N I. split; [|split; [reflexivity|unfold exprs_of; rewrite map_map; apply map_ext; reflexivity]].
  unfold keywords_of. rewrite map_map. apply in_map_iff. exists (k, v). split; [|exact I]. rewrite keyword_read; [reflexivity|].
  intros E. apply N. cbn [fst] in E. rewrite <- E. apply in_map_iff. exists (k, v). split; [reflexivity|exact I].
Qed.
Print Assumptions C110_arguments_are_read_as_they_were.

(** A printer and a parser for two lines. *)
Fixpoint show_node (n : node) : string :=
  match n with Name i => i | Attribute v a => show_node v ++ "." ++ a | Call f _ _ => show_node f ++ "()" | _ => "?" end.
Definition line_of (n : node) : node := Other "Expr" [One "value" n].
Definition kw (k : string) (n : node) : node := Other "keyword" [Data "arg" k; One "value" n].
Definition new_abs : node := Call (Attribute (Name "paddle") "abs") [Name "x"] [].
Definition new_outer : node := Call (Attribute (Name "v") "outer") [] [kw "y" (Name "w")].
Definition ex_tools : tools :=
  MkTools (fun n => show_node n ++ String nl "")
    (fun s => if String.eqb s "paddle.abs(x)" then Ok [line_of new_abs]
              else if String.eqb s "v.outer(y=w)" then Ok [line_of new_outer] else Raise "SyntaxError")
    (fun _ => "") [] false.
Definition ex_imports : ist := MkIst [("torch", "torch")] [] ["torch"] [] [] [] [].
Definition ex_e := shipped_env ex_tools ex_imports.
Definition assign (x : string) (n : node) : node := Other "Assign" [Many "targets" [Name x]; One "value" n].
Definition old_abs : node := Call (Attribute (Name "torch") "abs") [Name "x"] [].
Definition old_ger : node := Call (Attribute (Name "v") "ger") [Name "w"] [].
Definition ex_state : bst world := MkBst 0 0 [] [] [] [] (MkWorld [] [] []).
Definition ex_file : list node := [assign "y" old_abs; assign "z" old_ger].
Lemma ex_reads : reads_expressions (parse ex_tools).
Proof.
  intros text l n H I. cbn [parse ex_tools] in H.
  assert (S : forall v, v = new_abs \/ v = new_outer -> simple v).
  { intros v [->| ->] m; vm_compute; intuition (subst; discriminate || (repeat match goal with H : _ \/ _ |- _ => destruct H end; subst; try discriminate; try contradiction)). }
  assert (E : n = line_of new_abs \/ n = line_of new_outer).
  { destruct (String.eqb text _); [injection H as <-; destruct I as [<-|[]]; auto|].
    destruct (String.eqb text _); [injection H as <-; destruct I as [<-|[]]; auto|discriminate]. }
  split.
  - intros v C. apply S. destruct E as [->| ->]; injection C as <-; auto.
  - intros K. exfalso. destruct E as [->| ->]; revert K; vm_compute; intuition discriminate.
Qed.
Lemma ex_run : exists s', basic_transform ex_e 100 (Other "Module" [Many "body" ex_file]) ex_state
  = Ok (Other "Module" [Many "body" [assign "y" new_abs; assign "z" new_outer]], s').
Proof. eexists. vm_compute. reflexivity. Qed.
Example C109_nonvacuous : reads_expressions (parse ex_tools) /\ well_formed (Other "Module" [Many "body" ex_file]) /\
  Placed.parsed (Other "Module" [Many "body" ex_file]) /\
  exists s', basic_transform ex_e 100 (Other "Module" [Many "body" ex_file]) ex_state
    = Ok (Other "Module" [Many "body" [assign "y" new_abs; assign "z" new_outer]], s').
Proof.
  split; [exact ex_reads|]. split; [|split; [|exact ex_run]].
  - repeat split.
    + intros [<-|[<-|[]]]; revert H; cbn; intuition discriminate.
    + intros ->. revert H. cbn. intuition discriminate.
    + intros names H ->. revert H. cbn. intuition discriminate.
    + intros m names lv H ->. revert H. cbn. intuition discriminate.
  - split; [|split].
    + intros k fs H. split; [|split].
      * cbn in H. repeat destruct H as [H|H]; try discriminate; try contradiction; injection H as <- <-; repeat constructor; cbn; intuition discriminate.
      * intros B nm c IN. cbn in H. repeat destruct H as [H|H]; try discriminate; try contradiction; injection H as <- <-;
          cbn in IN, B; intuition (try discriminate).
      * intros ->. cbn in H. repeat destruct H as [H|H]; try discriminate; try contradiction.
    + intros v0 a0 H m MI. cbn in H. repeat destruct H as [H|H]; try discriminate; try contradiction; injection H as <- <-;
        cbn in MI; repeat destruct MI as [<-|MI]; try contradiction; cbn; intuition discriminate.
    + intros f0 a0 k0 H m MI. cbn in H. repeat destruct H as [H|H]; try discriminate; try contradiction; injection H as <- <- <-;
        cbn in MI; repeat destruct MI as [<-|MI]; try contradiction; cbn; intuition discriminate.
Qed.

(** The two lines as uses. *)
Definition ex_stack (n : node) (x : string) (i : nat) : list frame :=
  [MkFrame n (At "value" 0); MkFrame (assign x n) (At "body" i); MkFrame (Other "Module" [Many "body" ex_file]) (At "" 0)].
Definition ex_inside : bst world := MkBst 4 2 [("torch.abs", ("paddle.abs", 2))] [] [[At "" 0]] [] (MkWorld [] [] []).
Lemma ex_plain : plain_file ex_e.
Proof.
  split.
  - intros h full. cbn [file_imports ex_e shipped_env ex_imports imports dget]. destruct (String.eqb_spec h "torch") as [->|_]; [intros [= <-]; split; [discriminate|reflexivity]|discriminate].
  - intros p [<-|[]]. reflexivity.
Qed.
Lemma ex_use f l : spelling ex_e f = Some l -> Forall plain l -> mem_str (hd "" l) bookkeeping = false -> plain_use ex_e f.
Proof.
  intros S F B l' E. rewrite S in E. injection E as <-. split; [exact F|]. intros (h & r & -> & I). cbn [hd] in B. apply mem_str_In in I. congruence.
Qed.
Ltac plain_list := repeat constructor; try discriminate; try reflexivity.
Definition row_abs : row := R "torch.abs" (Some "ChangePrefixMatcher") false false (bare None).
Definition entry_ger : entry :=
  MkEntry ["vec2"] [] 1 [] [("vec2", TName "y")] [] (Some "paddle.Tensor.outer").
Definition row_ger : row := R "torch.Tensor.ger" (Some "GenericMatcher") false false entry_ger.
Lemma found_abs : get_api_matcher "torch.abs" = LMatcher "torch.abs" "ChangePrefixMatcher" row_abs.
Proof. vm_compute. reflexivity. Qed.
Lemma found_ger : get_api_matcher "torch.Tensor.ger" = LMatcher "torch.Tensor.ger" "GenericMatcher" row_ger.
Proof. vm_compute. reflexivity. Qed.
Lemma package_torch : dget String.eqb "torch" torch_package_mapping = Some "paddle".
Proof. vm_compute. reflexivity. Qed.
Lemma known_ger : in_api_mapping "torch.Tensor.ger" = true /\ in_api_mapping "v.ger" = false.
Proof. vm_compute. split; reflexivity. Qed.
Example C110_nonvacuous :
  plain_file ex_e /\
  (plain_use ex_e (Attribute (Name "torch") "abs") /\ stands_for ex_e true (Attribute (Name "torch") "abs") (Package "torch.abs") /\
   get_api_matcher "torch.abs" = LMatcher "torch.abs" "ChangePrefixMatcher" row_abs /\
   new_call ex_tools row_abs None [Name "x"] [] "out_0" "paddle.abs" "paddle.abs(x)" /\
   parse ex_tools "paddle.abs(x)" = Ok ([] ++ [line_of new_abs])%list /\ expression_of (line_of new_abs) new_abs /\ In (kind_of new_abs) for_call /\
   scope_body_index (ex_stack old_abs "y" 0) (scopes ex_inside) = Ok ([At "" 0], "body", 0)) /\
  (plain_use ex_e (Attribute (Name "v") "ger") /\ stands_for ex_e true (Attribute (Name "v") "ger") (Member "torch.Tensor.ger") /\
   source ex_tools (Attribute (Name "v") "ger") = "v" ++ "." ++ "ger" /\ plain_text "v" /\
   get_api_matcher "torch.Tensor.ger" = LMatcher "torch.Tensor.ger" "GenericMatcher" row_ger /\
   new_call ex_tools row_ger (Some "v") [Name "w"] [] "out_0" "paddle.Tensor.outer" "v.outer(y=w)" /\
   parse ex_tools "v.outer(y=w)" = Ok ([] ++ [line_of new_outer])%list /\ expression_of (line_of new_outer) new_outer /\
   In (kind_of new_outer) for_method).
Proof.
  destruct known_ger as [KG NG]. split; [exact ex_plain|]. split.
  - split; [eapply ex_use; [reflexivity|plain_list|reflexivity]|]. split.
    { split; [|reflexivity]. left. exists "torch", ["abs"]. split; [left; reflexivity|]. split; [discriminate|reflexivity]. }
    split; [exact found_abs|]. split.
    { apply (new_package ex_tools row_abs None [Name "x"] [] "out_0" "torch" "paddle" "abs" "paddle.abs"); try reflexivity; constructor. }
    split; [reflexivity|]. split; [constructor; reflexivity|]. split; [left; reflexivity|]. vm_compute. reflexivity.
  - split; [eapply ex_use; [reflexivity|plain_list|reflexivity]|]. split.
    { split.
      - intros [(p & rest & [<-|[]] & _ & H)|[_ H]]; [discriminate H|]. cbn in H. congruence.
      - exists [], "torch.Tensor", (tl classes). split; [reflexivity|]. split; [reflexivity|]. split; [|intros c' []].
        split; [|exact KG]. apply own_tensor; [reflexivity|]. intros (c & [<-|[]] & H). discriminate H. }
    split; [reflexivity|]. split; [split; reflexivity|]. split; [exact found_ger|]. split.
    { apply (new_arguments ex_tools row_ger (Some "v") [Name "w"] [] "out_0" "paddle.Tensor.outer" "v.outer"); try reflexivity.
      - constructor; cbn.
        + intros z [<-|[]]. reflexivity.
        + intros n [].
        + split; repeat constructor.
        + intros k [<-|[]] [].
        + repeat constructor. intros [].
      - intros H. cbn in H. intuition discriminate.
      - apply (on_receiver "paddle.Tensor.outer" "paddle.Tensor" ".outer" "v"); [left; reflexivity|reflexivity]. }
    split; [reflexivity|]. split; [constructor; reflexivity|]. left. reflexivity.
Qed.

(** ** C111 *)
(** A call that is printed again under another name is lost only if the parser rejects
    the new text. *)
Theorem C111_reprinted_calls_do_not_raise : forall t api a c r origin args kws st w x,
  get_api_matcher api = LMatcher a c r -> In c reprinting ->
  shipped_call t (MkMatcher a c r origin) args kws st w = Raise x -> exists code, parse t code = Raise x.
Proof. intros t api a c r origin args kws st w x L I H. exact (reprinted_call t api a c r origin args kws st w x L I H). Qed.
Print Assumptions C111_reprinted_calls_do_not_raise.
Theorem C111_reprinted_method_calls_do_not_raise : forall t api a c r origin f args kws st w x,
  get_api_matcher api = LMatcher a c r -> In c reprinting ->
  shipped_method t (MkMatcher a c r origin) f args kws st w = Raise x -> exists code, parse t code = Raise x.
Proof. intros t api a c r origin f args kws st w x L I H. exact (reprinted_method t api a c r origin f args kws st w x L I H). Qed.
Print Assumptions C111_reprinted_method_calls_do_not_raise.
(** Calls whose code is generated: as before, or one of the calls C75 lists. *)
Theorem C111_generated_calls_do_not_raise : forall t api a c r g origin args kws st w x,
  get_api_matcher api = LMatcher a c r -> generator r = Some g -> regular r None (exprs_of t args) (keywords_of t kws) ->
  shipped_call t (MkMatcher a c r origin) args kws st w = Raise x ->
  (exists code, parse t code = Raise x) \/ (x = "KeyError" /\ fragile r (exprs_of t args) (keywords_of t kws)).
Proof. intros t api a c r g origin args kws st w x L G Q H. exact (gen_call t api a c r origin g L G args kws st w x Q H). Qed.
Print Assumptions C111_generated_calls_do_not_raise.
Theorem C111_generated_method_calls_do_not_raise : forall t api a c r g origin f args kws st w x,
  get_api_matcher api = LMatcher a c r -> generator r = Some g -> regular r (Some (receiver_of t f)) (exprs_of t args) (keywords_of t kws) ->
  shipped_method t (MkMatcher a c r origin) f args kws st w = Raise x ->
  (exists code, parse t code = Raise x) \/ (x = "KeyError" /\ fragile r (exprs_of t args) (keywords_of t kws)).
Proof. intros t api a c r g origin f args kws st w x L G Q H. exact (gen_method t api a c r origin g L G f args kws st w x Q H). Qed.
Print Assumptions C111_generated_method_calls_do_not_raise.

(** Four methods with own code for method calls cannot be called through their class:
    [torch.Tensor.max(x)] raises TypeError, whatever is printed and parsed. *)
Lemma own_classes : Forall (fun c => dget String.eqb c generators = None) ["TensorMaxMatcher"; "TensorMinMatcher"; "TensorRenameMatcher"; "TensorStftMatcher"].
Proof. repeat (constructor; [vm_compute; reflexivity|]). constructor. Qed.
Lemma unbound_raises : forall t a c r origin args kws st w d,
  In c ["TensorMaxMatcher"; "TensorMinMatcher"; "TensorRenameMatcher"; "TensorStftMatcher"] ->
  fst (parse_args_and_kwargs (r_entry r) false false (exprs_of t args) (keywords_of t kws)) = Bound d ->
  shipped_call t (MkMatcher a c r origin) args kws st w = Raise "TypeError".
Proof.
  intros t a c r origin args kws st w d I B.
  assert (G : dget String.eqb c generators = None) by (exact (proj1 (Forall_forall _ _) own_classes c I)).
  assert (P : exists p, paddle_name t (MkMatcher a c r origin) = Ok p).
  { unfold paddle_name, asserting. cbn [m_class m_row m_api]. rewrite G.
    destruct I as [I|[I|[I|[I|[]]]]]; rewrite <- I; eexists; reflexivity. }
  destruct P as (p & P). unfold shipped_call. rewrite P. cbn [bind]. unfold nodes_of. cbn [m_class m_row].
  assert (A : printed_again c = None) by (destruct I as [I|[I|[I|[I|[]]]]]; rewrite <- I; reflexivity). rewrite A.
  assert (N : forall q, special_nodes t (MkMatcher a c r origin) None q args kws w = None)
    by (intros q; destruct I as [I|[I|[I|[I|[]]]]]; rewrite <- I; reflexivity).
  rewrite N. unfold base_nodes. cbn [m_class m_row]. rewrite B, G. reflexivity.
Qed.
Lemma found_max : exists r, get_api_matcher "torch.Tensor.max" = LMatcher "torch.Tensor.max" "TensorMaxMatcher" r /\
  r_entry r = MkEntry ["dim"; "keepdim"; "other"] [] 0 [] [("dim", TName "axis"); ("other", TName "y")] [] (Some "paddle.Tensor.max").
Proof. eexists. split; vm_compute; reflexivity. Qed.
Theorem C111_unbound_methods_refuted : forall t imps x st s,
  let e := shipped_env t imps in let f := Attribute (Attribute (Name "torch") "Tensor") "max" in
  kind_of x <> "Starred" -> plain_file e -> plain_use e f -> stands_for e true f (Package "torch.Tensor.max") ->
  forall r s', finish_call e f [x] [] st s <> Ok (r, s').
Proof.
  intros t imps x st s e f KX PF PU SF r s'. destruct found_max as (rw & L & RW).
  destruct (PropertiesRecognise.C82_calls_recognised_exactly _ e f [x] [] st s PF PU) as (rd & SF' & H).
  rewrite (PropertiesRecognise.C82_one_reading _ _ _ _ _ _ SF' SF) in H. destruct H as (l & _ & H). rewrite H.
  unfold visit_torch_call. rewrite L. cbn [matcher_of bind].
  destruct (ask_and_note e _ _ st _) as [s1|]; [|discriminate]. cbn [bind].
  assert (C : call_nodes e (MkMatcher "torch.Tensor.max" "TensorMaxMatcher" rw (dotted l)) [x] [] st (shared s1) = Raise "TypeError").
  { cbn [call_nodes e shipped_env]. apply unbound_raises with (d := [(Some "dim", text (expr_of t x))]); [now left|]. rewrite RW.
    unfold parse_args_and_kwargs. cbn [exprs_of keywords_of map existsb expr_of e_starred].
    rewrite (proj2 (String.eqb_neq _ _) KX). reflexivity. }
  rewrite C. discriminate.
Qed.
Print Assumptions C111_unbound_methods_refuted.

(** ** C112 *)
(** With --mode min a call of an API whose name only changes its package keeps its name:
    it is printed again as it is written, without five keywords. *)
Theorem C112_min_mode_keeps_names :
  forall t imps f args kws api a r l before last_ x st p line s,
  let e := shipped_env t imps in
  min_mode t = true -> plain_file e -> plain_use e f -> stands_for e true f (Package api) -> spelling e f = Some l -> dotted l <> "" ->
  get_api_matcher api = LMatcher a "ChangePrefixMatcher" r -> NoDup (map keyword_name kws) ->
  parse t (call_with t (dotted l) ["layout"; "generator"; "memory_format"; "sparse_grad"; "foreach"] args kws) = Ok (before ++ [last_])%list ->
  expression_of last_ x -> In (kind_of x) for_call ->
  parent st = Ok p -> scope_body_index st (scopes s) = Ok line -> (no_room p -> for_the_line e before = []) ->
  NoDup (dkeys (all_apis s)) ->
  exists s', finish_call e f args kws st s = Ok (Reply (VNode x), s') /\
    booked api api (dotted l) EffectSpec.Converted s s' /\ requested line [ask e p before] s s'.
Proof.
  intros t imps f args kws api a r l before last_ x st p line s e MIN PF PU SF SP NE L NK PA X K P B R ND.
  destruct (PropertiesRecognise.C82_calls_recognised_exactly _ e f args kws st s PF PU) as (rd & SF' & H).
  rewrite (PropertiesRecognise.C82_one_reading _ _ _ _ _ _ SF' SF) in H. destruct H as (l' & SP' & H). rewrite SP in SP'. injection SP' as <-. rewrite H.
  assert (A : forall w, api_of e (MkMatcher a "ChangePrefixMatcher" r (dotted l)) st w = Ok (Some (dotted l), [], w)).
  { intros w. exact (kept_name t a r (dotted l) MIN st w). }
  pose proof (kept_call t api a r (dotted l) MIN L args kws st (shared s) _ NK PA) as C.
  exact (call_rewritten e st p line s api a _ r (dotted l) (dotted l) before last_ x L P B ND NE A X R f args kws kws _ K C).
Qed.
Print Assumptions C112_min_mode_keeps_names.
Theorem C112_min_mode_keeps_methods :
  forall t imps f args kws api a r l before last_ x st p line s,
  let e := shipped_env t imps in
  min_mode t = true -> plain_file e -> plain_use e f -> stands_for e true f (Member api) -> spelling e f = Some l -> dotted l <> "" ->
  get_api_matcher api = LMatcher a "ChangePrefixMatcher" r -> NoDup (map keyword_name kws) ->
  parse t (call_with t (source t f) ["layout"; "generator"; "memory_format"; "sparse_grad"; "foreach"] (shown args) kws) = Ok (before ++ [last_])%list ->
  expression_of last_ x -> In (kind_of x) for_method ->
  parent st = Ok p -> scope_body_index st (scopes s) = Ok line -> (no_room p -> for_the_line e before = []) ->
  NoDup (dkeys (all_apis s)) ->
  exists s', finish_call e f args kws st s = Ok (Reply (VNode (put_back args x)), s') /\
    booked api ("*" ++ method_suffix api) (dotted l) EffectSpec.Converted s s' /\ requested line [ask e p before] s s'.
Proof.
  intros t imps f args kws api a r l before last_ x st p line s e MIN PF PU SF SP NE L NK PA X K P B R ND.
  destruct (PropertiesRecognise.C82_calls_recognised_exactly _ e f args kws st s PF PU) as (rd & SF' & H).
  rewrite (PropertiesRecognise.C82_one_reading _ _ _ _ _ _ SF' SF) in H. destruct H as (l' & SP' & H). rewrite SP in SP'. injection SP' as <-. rewrite H.
  assert (A : forall w, api_of e (MkMatcher a "ChangePrefixMatcher" r (dotted l)) st w = Ok (Some (dotted l), [], w)).
  { intros w. exact (kept_name t a r (dotted l) MIN st w). }
  pose proof (kept_method t api a r (dotted l) MIN L f (shown args) kws st (shared s) _ NK PA) as C.
  exact (method_rewritten e st p line s api a _ r (dotted l) (dotted l) before last_ x L P B ND NE A X R f args kws kws _ K C).
Qed.
Print Assumptions C112_min_mode_keeps_methods.
(** A call without these keywords is not changed at all, if the parser reads the printed
    call back. *)
Theorem C112_min_mode_leaves_calls : forall t imps f args kws api a r l st p line s,
  let e := shipped_env t imps in
  min_mode t = true -> plain_file e -> plain_use e f -> stands_for e true f (Package api) -> spelling e f = Some l -> dotted l <> "" ->
  get_api_matcher api = LMatcher a "ChangePrefixMatcher" r -> NoDup (map keyword_name kws) ->
  (forall k, In k ["layout"; "generator"; "memory_format"; "sparse_grad"; "foreach"] -> ~ In (Some k) (map keyword_name kws)) ->
  parse t (call_with t (dotted l) [] args kws) = Ok [Other "Expr" [One "value" (Call f args kws)]] ->
  parent st = Ok p -> scope_body_index st (scopes s) = Ok line -> NoDup (dkeys (all_apis s)) ->
  exists s', finish_call e f args kws st s = Ok (Reply (VNode (Call f args kws)), s') /\ requested line [ask e p []] s s'.
Proof.
  intros t imps f args kws api a r l st p line s e MIN PF PU SF SP NE L NK NO PA P B ND.
  assert (E : call_with t (dotted l) ["layout"; "generator"; "memory_format"; "sparse_grad"; "foreach"] args kws = call_with t (dotted l) [] args kws).
  { unfold call_with. f_equal. f_equal. f_equal. apply filter_ext_in. intros k I. apply in_map_iff in I as (n & <- & I).
    unfold named_in. cbn [kw_arg keyword_of]. destruct (keyword_name n) as [x|] eqn:KN; [|reflexivity].
    f_equal. destruct (mem_str x ["layout"; "generator"; "memory_format"; "sparse_grad"; "foreach"]) eqn:MS; [|reflexivity].
    exfalso. apply mem_str_In in MS. apply (NO x MS). rewrite <- KN. apply in_map. exact I. }
  destruct (C112_min_mode_keeps_names t imps f args kws api a r l [] (Other "Expr" [One "value" (Call f args kws)]) (Call f args kws) st p line s
    MIN PF PU SF SP NE L NK) as (s' & H & _ & Q).
  - rewrite E. exact PA.
  - constructor; reflexivity.
  - now left.
  - exact P.
  - exact B.
  - reflexivity.
  - exact ND.
  - exists s'. split; [exact H|exact Q].
Qed.
Print Assumptions C112_min_mode_leaves_calls.
(** The keywords disappear although the API is not converted. *)
Definition row_empty : row := match get_api_matcher "torch.empty_like" with LMatcher _ _ r => r | _ => row_abs end.
Lemma found_empty : get_api_matcher "torch.empty_like" = LMatcher "torch.empty_like" "ChangePrefixMatcher" row_empty.
Proof. vm_compute. reflexivity. Qed.
Theorem C112_min_mode_drops_keywords_refuted : forall t imps v st p line s,
  let e := shipped_env t imps in let f := Attribute (Name "torch") "empty_like" in
  min_mode t = true -> plain_file e -> plain_use e f -> spelling e f = Some ["torch"; "empty_like"] ->
  stands_for e true f (Package "torch.empty_like") -> source t (Name "x") = "x" ->
  parse t "torch.empty_like(x)" = Ok [Other "Expr" [One "value" (Call f [Name "x"] [])]] ->
  parent st = Ok p -> scope_body_index st (scopes s) = Ok line -> NoDup (dkeys (all_apis s)) ->
  exists s', finish_call e f [Name "x"] [kw "memory_format" v] st s = Ok (Reply (VNode (Call f [Name "x"] [])), s').
Proof.
  intros t imps v st p line s e f MIN PF PU SP SF PX PA P B ND.
  destruct (C112_min_mode_keeps_names t imps f [Name "x"] [kw "memory_format" v] "torch.empty_like" "torch.empty_like" row_empty
    ["torch"; "empty_like"] [] (Other "Expr" [One "value" (Call f [Name "x"] [])]) (Call f [Name "x"] []) st p line s MIN PF PU SF SP) as (s' & H & _).
  - discriminate.
  - exact found_empty.
  - repeat constructor. intros [].
  - unfold call_with. cbn [map exprs_of keywords_of keyword_of keyword_name kw String.eqb Ascii.eqb Bool.eqb filter named_in kw_arg].
    cbn [mem_str existsb String.eqb Ascii.eqb Bool.eqb orb negb map app]. change (text (expr_of t (Name "x"))) with (source t (Name "x")). rewrite PX. exact PA.
  - constructor. reflexivity.
  - now left.
  - exact P.
  - exact B.
  - reflexivity.
  - exact ND.
  - exists s'. exact H.
Qed.
Print Assumptions C112_min_mode_drops_keywords_refuted.

(** *** Examples *)
Definition quiet_tools (min : bool) : tools :=
  MkTools show_node
    (fun s => if String.eqb s "torch.abs(x)" then Ok [line_of old_abs]
              else if String.eqb s "torch.empty_like(x)" then Ok [line_of (Call (Attribute (Name "torch") "empty_like") [Name "x"] [])]
              else Raise "SyntaxError") (fun _ => "") [] min.
Definition quiet_e := shipped_env (quiet_tools true) ex_imports.
Definition old_addmv : node := Attribute (Name "obj") "addmv".
Definition kws_addmv : list node := [kw "mat" (Name "m"); kw "vec" (Name "w")].
Lemma found_addmv : match get_api_matcher "torch.Tensor.addmv" with
  | LMatcher a c r => an_object r = Some "obj" /\ regularb r [("mat", "m"); ("vec", "w")] = true /\ generator r <> None /\
      shipped_method (quiet_tools false) (MkMatcher a c r "obj.addmv") old_addmv [] kws_addmv [] (MkWorld [] [] []) = Raise "SyntaxError"
  | _ => False
  end.
Proof. vm_compute. repeat split. discriminate. Qed.
Example C111_nonvacuous :
  (In "ChangePrefixMatcher" reprinting /\ get_api_matcher "torch.abs" = LMatcher "torch.abs" "ChangePrefixMatcher" row_abs /\
   shipped_call ex_tools (MkMatcher "torch.abs" "ChangePrefixMatcher" row_abs "torch.abs") [Name "q"] [] [] (MkWorld [] [] []) = Raise "SyntaxError") /\
  (exists a c r g, get_api_matcher "torch.Tensor.addmv" = LMatcher a c r /\ generator r = Some g /\
     regular r (Some (receiver_of (quiet_tools false) old_addmv)) (exprs_of (quiet_tools false) []) (keywords_of (quiet_tools false) kws_addmv) /\
     shipped_method (quiet_tools false) (MkMatcher a c r "obj.addmv") old_addmv [] kws_addmv [] (MkWorld [] [] []) = Raise "SyntaxError") /\
  plain_use ex_e (Attribute (Attribute (Name "torch") "Tensor") "max") /\
  stands_for ex_e true (Attribute (Attribute (Name "torch") "Tensor") "max") (Package "torch.Tensor.max").
Proof.
  split; [|split; [|split]].
  - split; [left; reflexivity|]. split; [exact found_abs|]. vm_compute. reflexivity.
  - pose proof found_addmv as H. destruct (get_api_matcher "torch.Tensor.addmv") as [| | |a c r]; try contradiction.
    destruct H as (O & R & G & S). destruct (generator r) as [g|] eqn:GE; [|congruence]. exists a, c, r, g.
    split; [reflexivity|]. split; [exact GE|]. split; [|exact S]. apply regularb_ok in R. rewrite O in R. exact R.
  - eapply ex_use; [reflexivity|plain_list|reflexivity].
  - split; [|reflexivity]. left. exists "torch", ["Tensor"; "max"]. split; [left; reflexivity|]. split; [discriminate|reflexivity].
Qed.
Lemma quiet_plain : plain_file quiet_e.
Proof. destruct ex_plain as [A B]. split; [exact A|exact B]. Qed.
Lemma quiet_use f l : spelling quiet_e f = Some l -> Forall plain l -> mem_str (hd "" l) bookkeeping = false -> plain_use quiet_e f.
Proof.
  intros S F B l' E. rewrite S in E. injection E as <-. split; [exact F|]. intros (h & r & -> & I). cbn [hd] in B. apply mem_str_In in I. congruence.
Qed.
Example C112_nonvacuous :
  min_mode (quiet_tools true) = true /\ plain_file quiet_e /\
  (plain_use quiet_e (Attribute (Name "torch") "abs") /\ stands_for quiet_e true (Attribute (Name "torch") "abs") (Package "torch.abs") /\
   spelling quiet_e (Attribute (Name "torch") "abs") = Some ["torch"; "abs"] /\
   parse (quiet_tools true) (call_with (quiet_tools true) (dotted ["torch"; "abs"]) [] [Name "x"] []) = Ok [line_of old_abs] /\
   scope_body_index (ex_stack old_abs "y" 0) (scopes ex_inside) = Ok ([At "" 0], "body", 0)) /\
  (plain_use quiet_e (Attribute (Name "torch") "empty_like") /\
   stands_for quiet_e true (Attribute (Name "torch") "empty_like") (Package "torch.empty_like") /\
   source (quiet_tools true) (Name "x") = "x" /\
   parse (quiet_tools true) "torch.empty_like(x)" = Ok [line_of (Call (Attribute (Name "torch") "empty_like") [Name "x"] [])]).
Proof.
  split; [reflexivity|]. split; [exact quiet_plain|]. split.
  - split; [eapply quiet_use; [reflexivity|plain_list|reflexivity]|]. split.
    { split; [|reflexivity]. left. exists "torch", ["abs"]. split; [left; reflexivity|]. split; [discriminate|reflexivity]. }
    split; [reflexivity|]. split; [reflexivity|]. vm_compute. reflexivity.
  - split; [eapply quiet_use; [reflexivity|plain_list|reflexivity]|]. split.
    { split; [|reflexivity]. left. exists "torch", ["empty_like"]. split; [left; reflexivity|]. split; [discriminate|reflexivity]. }
    split; reflexivity.
Qed.
