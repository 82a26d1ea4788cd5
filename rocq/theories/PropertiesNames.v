(** Names and helper code over a whole conversion (C115, C116).  Python's parser and
    [astor]'s printer are arbitrary functions. *)
From Verif Require Import PyStr PyStrFacts PyDict UtilsFile TablesData Lookup Args ArgsSpec Ast ImportPass BasicPass
  Generate GenerateData GenerateRows GenerateSpec GenerateExact Grammar GrammarRows GenerateFacts Names Shipped ShippedSpec ShippedFacts ShippedHelpers ShippedNames.
From Verif Require PropertiesGenerate GrammarRows.
Opaque api_mapping attribute_mapping alias_mapping wildcard_mapping matcher_classes torch_package_mapping generators.

(** ** C115 *)
(** The conversion of a file is a sequence of questions to the matchers: nothing else
    changes their state. *)
Theorem C115_a_conversion_asks_the_matchers : forall t imps limit root s root' s',
  basic_transform (shipped_env t imps) limit root s = Ok (root', s') ->
  exists qs, asked t (shared s) qs (shared s').
Proof. exact transform_reaches. Qed.
Print Assumptions C115_a_conversion_asks_the_matchers.

(** Two calls converted one after the other, whatever is converted between them and in
    whichever file: the variables the statements of the one assign to are not those of the
    other, apart from the fixed names of [clobbered]. *)
Theorem C115_temporaries_never_meet :
  forall t operand expression w before q1 w1 ns1 l1 between q2 w2 ns2 l2 after w' r1 g1 recv1 args1 kws1 r2 g2 recv2 args2 kws2,
    asked t w (before ++ (q1, w1, ANodes ns1, l1) :: between ++ (q2, w2, ANodes ns2, l2) :: after)%list w' ->
    about_call t q1 r1 recv1 args1 kws1 -> generator r1 = Some g1 ->
    regular r1 recv1 (exprs_of t args1) (keywords_of t kws1) -> well_written operand expression r1 recv1 (exprs_of t args1) (keywords_of t kws1) ->
    about_call t q2 r2 recv2 args2 kws2 -> generator r2 = Some g2 ->
    regular r2 recv2 (exprs_of t args2) (keywords_of t kws2) -> well_written operand expression r2 recv2 (exprs_of t args2) (keywords_of t kws2) ->
    exists code1 names1 code2 names2,
      parse t code1 = Ok ns1 /\ program operand expression names1 code1 /\
      parse t code2 = Ok ns2 /\ program operand expression names2 code2 /\
      forall n, In n names1 -> In n names2 -> listed clobbered r1 n /\ listed clobbered r2 n.
Proof. exact temporaries_apart. Qed.
Print Assumptions C115_temporaries_never_meet.

(** ** C116 *)
(** The code of which calls asks for the helper code of its class. *)
Theorem C116_who_asks_for_helper_code : forall r g recv args kwargs i q u c,
  In r api_mapping -> generator r = Some g -> regular r recv args kwargs -> r_matcher r = Some c ->
  paddle_nodes r g recv args kwargs i = Ret (Converted q u) ->
  (u = true <-> In c with_helper /\ helper_needed r args kwargs).
Proof. exact helper_asked. Qed.
Print Assumptions C116_who_asks_for_helper_code.

(** It is imported and it is in the registry when the conversion ends. *)
Theorem C116_needed_helpers_are_registered :
  forall t w before q v ns l after w' r g recv args kws c,
    asked t w (before ++ (q, v, ANodes ns, l) :: after)%list w' ->
    about_call t q r recv args kws -> generator r = Some g -> regular r recv (exprs_of t args) (keywords_of t kws) ->
    r_matcher r = Some c -> In c with_helper -> helper_needed r (exprs_of t args) (keywords_of t kws) -> helper_code t c <> "" ->
    l = helper_imports t /\ In (helper_code t c) (helpers w').
Proof. exact helper_registered. Qed.
Print Assumptions C116_needed_helpers_are_registered.
Theorem C116_other_calls_register_nothing :
  forall t q v ns l w' r g recv args kws c,
    answered t q v (ANodes ns) l w' ->
    about_call t q r recv args kws -> generator r = Some g -> regular r recv (exprs_of t args) (keywords_of t kws) ->
    r_matcher r = Some c -> ~ (In c with_helper /\ helper_needed r (exprs_of t args) (keywords_of t kws)) ->
    l = [] /\ helpers w' = helpers v.
Proof. exact helper_not_registered. Qed.
Print Assumptions C116_other_calls_register_nothing.
Theorem C116_names_of_helpers_register :
  forall t q m a w l w',
    answered t q w a l w' -> (exists st, q = AskName m st) \/ (exists n st, q = AskAttribute m n st) ->
    In (m_class m) with_helper -> helper_code t (m_class m) <> "" -> names_helper m ->
    l = helper_imports t /\ helpers w' = (helpers w ++ [helper_code t (m_class m)])%list.
Proof. exact name_registers. Qed.
Print Assumptions C116_names_of_helpers_register.
(** Nothing that was registered is lost. *)
Theorem C116_helper_code_is_kept : forall t w qs w', asked t w qs w' -> exists more, helpers w' = (helpers w ++ more)%list.
Proof. intros t w qs w' H. destruct (proj2 (asked_onward _ _ _ _ H)) as (l & E & _). exists l. exact E. Qed.
Print Assumptions C116_helper_code_is_kept.

(** ** Concrete cases *)
Definition shown (n : node) : string := match n with Name i => i | _ => "?" end.
Definition ex_tools : tools :=
  MkTools shown (fun s => Ok [Name s]) (fun c => "# helpers of " ++ c) [ImportFrom (Some "paddle_utils") [MkAlias "*" None] 0] false.
Definition kw (k : string) (n : node) : node := Other "keyword" [Data "arg" k; One "value" n].
Definition empty : world := MkWorld [] [] [].
Definition a_call : list node := [kw "input" (Name "f(x)")].
Lemma two_calls :
  match get_api_matcher "torch.adjoint" with
  | LMatcher a c r =>
      match generator r with
      | Some _ =>
          an_object r = None /\ regularb r [("input", "f(x)")] = true /\ GrammarRows.mishandled r "input" = false /\
          match shipped_call ex_tools (MkMatcher a c r "torch.adjoint") [] a_call [] empty with
          | Ok (ANodes [Name x], k1, [], w1) =>
              assignsb "perm_0" x = true /\
              match shipped_call ex_tools (MkMatcher a c r "torch.adjoint") [] a_call [] w1 with
              | Ok (ANodes [Name y], k2, [], w2) => assignsb "perm_1" y = true
              | _ => False
              end
          | _ => False
          end
      | None => False
      end
  | _ => False
  end.
Proof. vm_compute. repeat split. Qed.
Definition only_this (v : string) : Prop := v = "f(x)".
Example C115_nonvacuous :
  exists q r g c1 w1 c2 w2,
    about_call ex_tools q r None [] a_call /\ generator r = Some g /\
    regular r None (exprs_of ex_tools []) (keywords_of ex_tools a_call) /\
    well_written only_this only_this r None (exprs_of ex_tools []) (keywords_of ex_tools a_call) /\
    asked ex_tools empty ([] ++ (q, empty, ANodes [Name c1], []) :: [] ++ (q, w1, ANodes [Name c2], []) :: [])%list w2 /\
    assigns "perm_0" c1 /\ assigns "perm_1" c2.
Proof.
  pose proof two_calls as H. destruct (get_api_matcher "torch.adjoint") as [| | |a c r] eqn:L; try contradiction.
  destruct (generator r) as [g|] eqn:G; [|contradiction]. destruct H as (O & R & MI & H).
  destruct (shipped_call ex_tools _ [] a_call [] empty) as [[[[x k1] l1] w1]|] eqn:E1; [|contradiction].
  destruct x as [| | |[|[x| | | | |] [|]]|]; try contradiction. destruct l1; [|contradiction]. destruct H as [A1 H].
  destruct (shipped_call ex_tools _ [] a_call [] w1) as [[[[y k2] l2] w2]|] eqn:E2; [|contradiction].
  destruct y as [| | |[|[y| | | | |] [|]]|]; try contradiction. destruct l2; [|contradiction].
  exists (AskCall (MkMatcher a c r "torch.adjoint") [] a_call []), r, g, x, w1, y, w2.
  split; [exists "torch.adjoint", a, c, "torch.adjoint", []; split; [exact L|reflexivity]|]. split; [exact G|].
  apply regularb_ok in R. rewrite O in R. split; [exact R|]. split.
  { split; [|discriminate]. intros k v X. rewrite <- !listedb_iff. change (keywords_of ex_tools a_call) with (PropertiesGenerate.named [("input", "f(x)")]) in X.
    unfold bindings in X. cbn [map exprs_of] in X. rewrite combine_nil in X. destruct X as [X|[]]. injection X as <- <-.
    split; [split; [split; [reflexivity|]|]; apply mem_str_false; reflexivity|]. split; [reflexivity|]. split; [reflexivity|].
    unfold GrammarRows.mishandled in MI. destruct (listedb stripped r "input"); [discriminate|]. rewrite MI.
    split; [intros _; reflexivity|]. split; discriminate. }
  split; [|split; apply assignsb_ok; assumption]. cbn [app].
  econstructor; [exists k1; exact E1|]. econstructor; [exists k2; exact E2|]. constructor.
Qed.
Lemma softmin_calls :
  match get_api_matcher "torch.nn.functional.softmin" with
  | LMatcher a c r =>
      match generator r with
      | Some _ =>
          an_object r = None /\ r_matcher r = Some c /\ mem_str c with_helper = true /\ r_name r = "torch.nn.functional.softmin" /\
          regularb r [("input", "f(x)")] = true /\
          match shipped_call ex_tools (MkMatcher a c r "torch.nn.functional.softmin") [] a_call [] empty with
          | Ok (ANodes _, _, [_], w1) => helpers w1 = ["# helpers of FSoftMinMatcher"]
          | _ => False
          end
      | None => False
      end
  | _ => False
  end.
Proof. vm_compute. repeat split. Qed.
Example C116_nonvacuous :
  exists q r g c ns l w1,
    about_call ex_tools q r None [] a_call /\ generator r = Some g /\
    regular r None (exprs_of ex_tools []) (keywords_of ex_tools a_call) /\ r_matcher r = Some c /\ In c with_helper /\
    helper_needed r (exprs_of ex_tools []) (keywords_of ex_tools a_call) /\ helper_code ex_tools c <> "" /\
    asked ex_tools empty ([] ++ (q, empty, ANodes ns, l) :: [])%list w1 /\
    helpers w1 = ["# helpers of FSoftMinMatcher"].
Proof.
  pose proof softmin_calls as H. destruct (get_api_matcher "torch.nn.functional.softmin") as [| | |a c r] eqn:L; try contradiction.
  destruct (generator r) as [g|] eqn:G; [|contradiction]. destruct H as (O & M & W & N & R & H).
  destruct (shipped_call ex_tools _ [] a_call [] empty) as [[[[x k1] l1] w1]|] eqn:E1; [|contradiction].
  destruct x as [| | |ns|]; try contradiction. destruct l1 as [|i [|]]; try contradiction.
  exists (AskCall (MkMatcher a c r "torch.nn.functional.softmin") [] a_call []), r, g, c, ns, [i], w1.
  split; [exists "torch.nn.functional.softmin", a, c, "torch.nn.functional.softmin", []; split; [exact L|reflexivity]|]. split; [exact G|].
  apply regularb_ok in R. rewrite O in R. split; [exact R|]. split; [exact M|]. split; [apply mem_str_In, W|].
  split.
  { unfold helper_needed. rewrite N. cbn [mem_str String.eqb Ascii.eqb Bool.eqb orb]. intros v V. unfold supplies, bindings in V. cbn [exprs_of map] in V. rewrite combine_nil in V. discriminate. }
  split; [discriminate|]. split; [|exact H]. cbn [app]. econstructor; [exists k1; exact E1|]. constructor.
Qed.
