(** Where generated statements go (C80).  The reference conversion is [Placed.convert_file]. *)
From Verif Require Import PyStr PyDict TablesData Lookup Ast AstFacts ImportPass ImportSpec Walk BasicPass NodeEq ConvSpec Placed PlacedUniform PlacedFacts PlacedWalk.
Opaque api_mapping attribute_mapping alias_mapping wildcard_mapping matcher_classes torch_package_mapping.

(** ** C80 *)
Definition forget {M} (r : res (node * bst M)) : res (node * bst M) :=
  match r with Ok (n, s) => Ok (n, without_records s) | Raise x => Raise x end.
Theorem C80_statements_go_above_their_line : forall M (e : benv M) limit body rest s,
  parsed (Other "Module" (Many "body" body :: rest)) -> gives_expressions e -> deletes_nothing e ->
  scopes s = [] -> records s = [] ->
  forget (basic_transform e limit (Other "Module" (Many "body" body :: rest)) s) = convert_file e limit body rest s.
Proof.
  intros M e limit body rest s PA G D SC RC. unfold basic_transform, convert_file. set (fs := Many "body" body :: rest).
  destruct limit as [|d]; [reflexivity|].
  assert (C : corr None s (s, ([], []))).
  { split; [destruct s; cbn in *; rewrite RC; reflexivity|]. rewrite RC. repeat split. constructor. }
  assert (X := owner_node e D d "Module" fs (At "" 0) [] s (s, ([], [])) None (all_nodes e G D d) (or_introl eq_refl) PA C).
  rewrite SC in X. specialize (X (Forall_nil _)). cbn [scope_body_index] in X.
  specialize (X (fun k' n E => match E with end) (fun k' E => match E with end)).
  assert (F : forall key, key <> file_top -> inside [At "" 0] key -> dget place_eqb key (records s) = None) by (rewrite RC; reflexivity).
  specialize (X F).
  match type of X with context [convert e (S d) (Other "Module" fs) (At "" 0) ?y] =>
    match goal with |- context [convert e (S d) (Other "Module" fs) (At "" 0) ?z] => change y with z in X end end.
  destruct (convert e (S d) (Other "Module" fs) (At "" 0) ([], (s, ([], [])))) as [[r [st' [c [top line]]]]|x]; cbn [bind].
  - destruct X as (_ & s' & fs' & -> & E & (-> & _ & T & _) & _). rewrite E. cbn [bind forget with_top]. do 3 f_equal.
    apply map_ext. intros [nm c|nm l|nm x]; cbn [topped]; try reflexivity. rewrite T. change (path []) with (@nil pos).
    destruct (String.eqb_spec nm "body") as [->|N]; [reflexivity|].
    destruct (place_eqb_spec ([At "" 0], nm, 0) file_top) as [Q|_]; [injection Q as Q; contradiction|].
    reflexivity.
  - rewrite X. reflexivity.
Qed.
Print Assumptions C80_statements_go_above_their_line.

(** A file with calls in a function, in the branches of an [if] and at top level.
    [torch.add] becomes [tmp = paddle.add] followed by [tmp] and asks for an import. *)
Definition word (t : string) : node := Other "Constant" [Data "value" t].
Definition expr (n : node) : node := Other "Expr" [One "value" n].
Definition assign (x : string) (n : node) : node := Other "Assign" [Many "targets" [Name x]; One "value" n].
Definition ex_add : node := Call (Attribute (Name "torch") "add") [] [].
Definition ex_zeros : node := Call (Attribute (Name "torch") "zeros") [] [].
Definition ex_helper : node := assign "tmp" (word "paddle.add").
Definition ex_import : node := Import [MkAlias "numpy" None].
Definition ex_env (zeros : answer) : benv nat :=
  MkBenv nat (MkIst [("torch", "torch")] [] ["torch"] [] [] [] []) (fun _ _ => false) (fun _ => false) (fun s => Ok (Name s))
    (fun m _ w => Ok (None, [], w)) (fun m n _ w => Ok (ANothing, [], w))
    (fun m a k _ w => Ok (if String.eqb (m_api m) "torch.add" then ANodes [ex_helper; expr (Name "tmp")] else zeros, (a, k),
                          if String.eqb (m_api m) "torch.add" then [ex_import] else [], w))
    (fun m f a k _ w => Ok (ANothing, (a, k), [], w)).
Definition ex_state : bst nat := MkBst 0 0 [] [] [] [] 0%nat.
Definition ex_body : list node :=
  [Other "FunctionDef" [Data "name" "f"; Many "body" [expr (word "doc"); Other "Return" [One "value" ex_add]]];
   Other "If" [One "test" ex_add; Many "body" [assign "y" ex_add; expr ex_add]; Many "orelse" [expr (word "no")]];
   assign "x" ex_zeros].
Definition ex_result : list node :=
  [ex_import;
   Other "FunctionDef" [Data "name" "f"; Many "body" [expr (word "doc"); ex_helper; Other "Return" [One "value" (Name "tmp")]]];
   ex_helper;
   Other "If" [One "test" (Name "tmp"); Many "body" [ex_helper; assign "y" (Name "tmp"); ex_helper; expr (Name "tmp")]; Many "orelse" [expr (word "no")]];
   assign "x" (Name "zeros")].

Lemma simple_word t : simple (word t). Proof. apply simple_other. split; [cbn; intuition discriminate|repeat constructor]. Qed.
Lemma simple_name i : simple (Name i). Proof. apply simple_leaf. exact Logic.I. Qed.
Lemma ex_gives zeros : (forall l, zeros = ANodes l -> l <> [] -> simple (result_node l)) -> gives_expressions (ex_env zeros).
Proof.
  intros Z. repeat split.
  - intros t n [= <-]. apply simple_name.
  - intros m n st w l imps w' [=].
  - injection H as _ <- _ _ _. assumption.
  - injection H as _ _ <- _ _. assumption.
  - intros l E N _. cbn [call_nodes ex_env] in H. destruct (String.eqb (m_api m) "torch.add"); injection H as H _ _ _ _; [|subst; auto].
    rewrite E in H. injection H as <-. apply simple_name.
  - injection H as _ <- _ _ _. assumption.
  - injection H as _ _ <- _ _. assumption.
  - intros l -> _ _. discriminate H.
Qed.
Lemma ex_deletes_nothing zeros : zeros <> ADelete -> deletes_nothing (ex_env zeros).
Proof.
  intros Z. repeat split; intros; try discriminate. cbn [call_nodes ex_env m_api]. destruct (String.eqb _ _); intros X; injection X as X _ _ _; congruence.
Qed.
Lemma nodes_check (P : node -> Prop) root : Forall P (nodes root) -> forall m, In m (nodes root) -> P m.
Proof. intros F. apply Forall_forall. exact F. Qed.
Definition good (m : node) : Prop :=
  match m with
  | Other k fs => NoDup (map field_name fs) /\ (In k block_owners -> forall nm c, In (One nm c) fs -> ~ In nm block_names) /\
                  (k = "Expr" -> exists c, In (One "value" c) fs)
  | Attribute _ _ | Call _ _ _ => simple m
  | _ => True
  end.
Lemma good_parsed root : Forall good (nodes root) -> parsed root.
Proof.
  intros F. rewrite Forall_forall in F. split; [|split]; [intros k fs H|intros v a H|intros f a k H]; exact (F _ H).
Qed.
Lemma simple_ex t : simple (Call (Attribute (Name "torch") t) [] []).
Proof. apply simple_call. repeat constructor. apply simple_attr, simple_name. Qed.
Ltac good_node :=
  cbv beta iota delta [good]; first
    [ exact Logic.I | apply simple_ex | apply simple_attr, simple_name
    | split; [repeat constructor; cbn; intuition discriminate|]; split;
      [cbn; intros K nm c H; cbn in K; intuition (try discriminate; match goal with H : One _ _ = One _ _ |- _ => injection H as <- <- | _ => idtac end; intuition discriminate)
      |intros E; first [discriminate E | eexists; left; reflexivity]] ].
Lemma ex_parsed : parsed (Other "Module" (Many "body" ex_body :: [])).
Proof. apply good_parsed. cbn. repeat (constructor; [good_node|]). constructor. Qed.
Lemma ex_run : forget (basic_transform (ex_env (ANodes [Name "zeros"])) 100 (Other "Module" [Many "body" ex_body]) ex_state)
  = Ok (Other "Module" [Many "body" ex_result], MkBst 5 5 [("torch.add", ("", 4)); ("torch.zeros", ("", 1))] [] [] [] 0%nat).
Proof. vm_compute. reflexivity. Qed.
Example C80_nonvacuous : exists s',
  parsed (Other "Module" [Many "body" ex_body]) /\ gives_expressions (ex_env (ANodes [Name "zeros"])) /\
  deletes_nothing (ex_env (ANodes [Name "zeros"])) /\ scopes ex_state = [] /\ records ex_state = [] /\
  convert_file (ex_env (ANodes [Name "zeros"])) 100 ex_body [] ex_state = Ok (Other "Module" [Many "body" ex_result], s').
Proof.
  eexists. split; [apply ex_parsed|]. split; [apply ex_gives; intros l [= <-] _; apply simple_name|].
  split; [apply ex_deletes_nothing; discriminate|]. split; [reflexivity|]. split; [reflexivity|].
  rewrite <- C80_statements_go_above_their_line; [apply ex_run|apply ex_parsed| | |reflexivity|reflexivity].
  - apply ex_gives. intros l [= <-] _. apply simple_name.
  - apply ex_deletes_nothing. discriminate.
Qed.

(** The condition on deletion is needed (no row of the shipped table deletes, see
    [C68]; a matcher class for it exists): a deleted line makes the insertion of a later
    line miss its place.  The statement that has to precede [x = tmp] follows it. *)
Lemma ex_alone : exists s', basic_transform (ex_env ADelete) 100 (module [assign "x" ex_add]) ex_state
  = Ok (module [ex_import; ex_helper; assign "x" (Name "tmp")], s').
Proof. eexists. vm_compute. reflexivity. Qed.
Lemma ex_deleted : exists s', basic_transform (ex_env ADelete) 100 (module [expr ex_zeros; assign "x" ex_add]) ex_state
  = Ok (module [ex_import; assign "x" (Name "tmp"); ex_helper], s').
Proof. eexists. vm_compute. reflexivity. Qed.
Theorem C80_deleted_line_refuted : exists M (e : benv M) limit s gone line line' imp helper s1 s2,
  gives_expressions e /\ scopes s = [] /\ records s = [] /\
  basic_transform e limit (module [line]) s = Ok (module [imp; helper; line'], s1) /\
  basic_transform e limit (module [gone; line]) s = Ok (module [imp; line'; helper], s2).
Proof.
  destruct ex_alone as [s1 E1]. destruct ex_deleted as [s2 E2].
  exists nat, (ex_env ADelete), 100, ex_state. eexists _, _, _, _, _, _, _. split; [apply ex_gives; discriminate|]. split; [reflexivity|]. split; [reflexivity|].
  split; [exact E1|exact E2].
Qed.
Print Assumptions C80_deleted_line_refuted.

(** ** C81 *)
(** The condition of a loop is evaluated before every round, the statements generated for
    it go above the loop and run once: the loop below tests the same tensor for ever. *)
Definition ex_loop (test : node) : node := Other "While" [One "test" test; Many "body" [expr (word "step")]; Many "orelse" []].
Lemma ex_while : exists s', basic_transform (ex_env ADelete) 100 (module [ex_loop ex_add]) ex_state
  = Ok (module [ex_import; ex_helper; ex_loop (Name "tmp")], s').
Proof. eexists. vm_compute. reflexivity. Qed.
Theorem C81_loop_condition_refuted : exists M (e : benv M) limit s test test' body imp x value s',
  gives_expressions e /\ scopes s = [] /\ records s = [] /\
  basic_transform e limit (module [Other "While" [One "test" test; Many "body" body; Many "orelse" []]]) s
  = Ok (module [imp; assign x value; Other "While" [One "test" test'; Many "body" body; Many "orelse" []]], s') /\
  In (Name x) (nodes test') /\ ~ In (Name x) (flat_map nodes body).
Proof.
  destruct ex_while as [s1 E1]. exists nat, (ex_env ADelete), 100, ex_state. eexists _, _, _, _, _, _, _.
  split; [apply ex_gives; discriminate|]. split; [reflexivity|]. split; [reflexivity|]. split; [exact E1|]. split; [left; reflexivity|].
  cbn. intuition discriminate.
Qed.
Print Assumptions C81_loop_condition_refuted.
