(** The names in generated code and in the helper file (C131-C133). *)
From Verif Require Import PyStr PyDict Args TablesData Lookup Ast BasicPass Converter Shipped Program Generate GenerateData GenerateRows GenerateSpec GenerateExact.
From Verif Require Import NodeEq HelperTexts HelperScope HelperScopeFacts GeneratedNames GeneratedNamesFacts.
From Verif Require PropertiesGenerate PropertiesHelpers PropertiesHelpers2 PropertiesDepend.
Import PropertiesHelpers.
Open Scope string_scope.
Open Scope list_scope.
Opaque api_mapping generators.

(** ** C131: the names of the generated code exist *)
(** Whatever the arguments: every name in the generated text that does not come from the call is a
    keyword or built-in, the package that the package of the row becomes (which the file then imports), a name
    that the text itself introduces, or a name of the helper text that the call brings with it; or it is one
    of three exceptions. *)
Theorem C131_names_exist : forall r g recv args kwargs i q u w,
  In r api_mapping -> generator r = Some g -> regular r recv args kwargs ->
  paddle_nodes r g recv args kwargs i = Ret (Converted q u) -> In w (own_words q) ->
  accounted r q u w \/ In (r_name r, w) nowhere.
Proof. exact names_accounted. Qed.
Print Assumptions C131_names_exist.

(** The exceptions are real.  A name "cpu" is read: *)
Theorem C131_decode_jpeg_refuted : forall x : string,
  PropertiesGenerate.rewrite "torchvision.io.decode_jpeg" None [x] [] =
    Some (Ret (nls ++ "paddle.vision.ops.decode_jpeg(x=" ++ written x ++ ").to(cpu)" ++ nls, false)%string).
Proof. intros x. vm_compute. reflexivity. Qed.
Print Assumptions C131_decode_jpeg_refuted.
(** A name "index" is read, whatever tensor the caller passes as the index: *)
Theorem C131_index_copy_refuted : forall x index source : string,
  PropertiesGenerate.rewrite "torch.index_copy" None [x; "1"; index; source] [] =
    Some (Ret (nls ++ "times, temp_shape, temp_index = paddle.prod(paddle.to_tensor(" ++ written x ++ ".shape[:1])), " ++ written x ++ ".shape, " ++ written index ++ nls
      ++ written x ++ ", new_t = " ++ written x ++ ".reshape([-1] + temp_shape[1+1:]), " ++ written source ++ ".reshape([-1] + temp_shape[1+1:])" ++ nls
      ++ "for i in range(1, times):" ++ nls
      ++ "    temp_index= paddle.concat([temp_index, index+len(index)*i])" ++ nls
      ++ "paddle.scatter(" ++ written x ++ ", temp_index, new_t).reshape(temp_shape)" ++ nls, false)%string).
Proof. intros x index source. vm_compute. reflexivity. Qed.
Print Assumptions C131_index_copy_refuted.

(** The trees of the expressions written in the examples below. *)
Fixpoint path (l : list string) (n : node) : node := match l with [] => n | x :: r => path r (Attribute n x) end.
Definition known_texts : list (string * node) :=
  [("paddle.distributed.get_world_size()", Call (path ["distributed"; "get_world_size"] (Name "paddle")) [] []);
   ((nls ++ "_set_num_threads(4)" ++ nls)%string, Call (Name "_set_num_threads") [Other "Constant" [Data "value" "4"]] []);
   ("paddle.nn.Module", path ["nn"; "Module"] (Name "paddle"));
   ("LSTMCell(input_size=4, hidden_size=4)", Call (Name "LSTMCell") [] [PropertiesDepend.keyword "input_size" (Other "Constant" [Data "value" "4"]); PropertiesDepend.keyword "hidden_size" (Other "Constant" [Data "value" "4"])])].
Definition star_import : node := ImportFrom (Some "paddle_utils") [MkAlias "*" None] 0.
Definition text_libraries : libraries :=
  MkLibraries (MkTools PropertiesDepend.shown
      (fun s => match dget String.eqb s known_texts with Some n => Ok [PropertiesDepend.statement n] | None => Raise "SyntaxError" end)
      (fun _ => "a helper") [star_import] false)
    false true (fun l => l) 100 (fun _ => Raise "SyntaxError") (fun _ => Raise "ValueError")
    (fun _ => None) (fun _ => None) (fun _ => 0%Z) 5 (fun _ _ l => l) contains.
(** The class of a row. *)
Definition row_matcher (n : string) : option string := match find (fun r => String.eqb (r_name r) n) api_mapping with Some r => r_matcher r | None => None end.
(** The statements of a converted module. *)
Definition converted_body (body : list node) : option (list node) :=
  match transfer_node (converter_setup text_libraries) (fun _ => false) "/in/m.py" (Other "Module" [Many "body" body]) (new_converter [] (Shipped.MkWorld [] [] [])) with
  | Ok (Other "Module" [Many "body" l], _) => Some l
  | _ => None
  end.
(** A name "paddle" is read by a file that does not import it: of torch's packages this one imports
    only transformers, which becomes paddleformers. *)
Definition world_size_file : list node :=
  [Import [MkAlias "os" None]; Import [MkAlias "transformers" None];
   Other "Assign" [Many "targets" [Name "n"];
     One "value" (Call (path ["environ"; "get"] (Name "os")) [Other "Constant" [Data "value" (PropertiesHelpers2.quoted "WORLD_SIZE")]] [])]].
Theorem C131_world_size_refuted : exists l,
  missing world_size_file = [] /\ converted_body world_size_file = Some l /\
  In (Other "Assign" [Many "targets" [Name "n"]; One "value" (Call (path ["distributed"; "get_world_size"] (Name "paddle")) [] [])]) l /\
  missing l = ["paddle"].
Proof.
  eexists. split; [vm_compute; reflexivity|]. split; [vm_compute; reflexivity|].
  split; [do 2 right; left; reflexivity|vm_compute; reflexivity].
Qed.
Print Assumptions C131_world_size_refuted.

(** Calls that meet the hypotheses: the name of the package, a name that the text introduces, a helper. *)
Definition readsb (n : string) (l : list (string * string)) (w : string) (helper : bool) : bool :=
  match find (fun r => String.eqb (r_name r) n) api_mapping with
  | Some r => match generator r with
      | Some g => regularb r l && match paddle_nodes r g (an_object r) [] (keywords l) [] with Ret (Converted q u) => mem w (own_words q) && Bool.eqb u helper | _ => false end
      | None => false end
  | None => false
  end.
Definition reads (n : string) (w : string) (helper : bool) : Prop :=
  exists r g recv kwargs q, In r api_mapping /\ r_name r = n /\ generator r = Some g /\ regular r recv [] kwargs /\
    paddle_nodes r g recv [] kwargs [] = Ret (Converted q helper) /\ In w (own_words q).
Lemma readsb_ok n l w h : readsb n l w h = true -> reads n w h.
Proof.
  unfold readsb. destruct (find _ api_mapping) as [r|] eqn:F; [|discriminate]. apply find_some in F. destruct F as [I N]. apply String.eqb_eq in N.
  destruct (generator r) as [g|] eqn:G; [|discriminate]. intros H. apply Bool.andb_true_iff in H. destruct H as [R H].
  destruct (paddle_nodes r g (an_object r) [] (keywords l) []) as [[q u| | |]|] eqn:P; try discriminate.
  apply Bool.andb_true_iff in H. destruct H as [H U]. apply Bool.eqb_prop in U. subst u.
  exists r, g, (an_object r), (keywords l), q. split; [exact I|]. split; [exact N|]. split; [exact G|]. split; [apply regularb_ok, R|]. split; [exact P|apply mem_In, H].
Qed.
Example C131_nonvacuous :
  reads "torch.logaddexp2" "paddle" false /\ reads "torch.index_copy" "new_t" false /\
  reads "torch.nn.LSTMCell" "LSTMCell" true /\ reads "torchvision.io.decode_jpeg" "cpu" false /\ reads "torch.index_copy" "index" false.
Proof.
  split; [apply (readsb_ok _ [("input", "x"); ("other", "y")]); vm_compute; reflexivity|].
  split; [apply (readsb_ok _ [("input", "x"); ("dim", "1"); ("index", "i"); ("source", "s")]); vm_compute; reflexivity|].
  split; [apply (readsb_ok _ [("input_size", "4"); ("hidden_size", "4")]); vm_compute; reflexivity|].
  split; [apply (readsb_ok _ [("input", "x")]); vm_compute; reflexivity|].
  apply (readsb_ok _ [("input", "x"); ("dim", "1"); ("index", "i"); ("source", "s")]); vm_compute; reflexivity.
Qed.

(** ** C132: the helper file *)
(** Every class of which a helper can be asked has its text in the table. *)
Theorem C132_all_helpers : forall c, In c with_helper -> exists text, In (c, text) helper_texts /\ text <> [].
Proof.
  assert (F : forallb (fun c => existsb (fun ct => String.eqb (fst ct) c && negb (match snd ct with [] => true | _ => false end)) helper_texts) with_helper = true) by (vm_compute; reflexivity).
  rewrite forallb_forall in F. intros c H. apply F in H. apply existsb_exists in H. destruct H as ([c' text] & I & H). cbn [fst snd] in H.
  apply Bool.andb_true_iff in H. destruct H as [E T]. apply String.eqb_eq in E. subst c'. exists text. split; [exact I|]. intros ->. discriminate T.
Qed.
Print Assumptions C132_all_helpers.
(** Whichever helpers a project needs, in whatever order they were written, and whatever else of them was
    written: each name is what its helper says.  No helper overwrites another's, nor "paddle". *)
Theorem C132_own_definitions : forall l n x,
  (forall m, In m l -> helper_statement m) -> In n l -> In x (keys_of n) -> stands_for x l = Some n.
Proof. exact stands_own. Qed.
Print Assumptions C132_own_definitions.
(** Whichever helpers are written: the names that the file reads and nothing binds are these. *)
Theorem C132_missing_exactly : forall sel x, (forall ct, In ct sel -> In ct helper_texts) ->
  (In x (missing (texts_of sel)) <-> exists ct, In ct sel /\ In (fst ct, x) absent).
Proof. exact missing_exactly. Qed.
Print Assumptions C132_missing_exactly.
(** So the helpers for [get_enum] and [torch.onnx.export] read names that no helper file has. *)
Theorem C132_complete_refuted : exists c text, In (c, text) helper_texts /\ In c with_helper /\
  forall sel, (forall ct, In ct sel -> In ct helper_texts) -> In (c, text) sel -> In "warnings" (missing (texts_of sel)).
Proof.
  destruct (C132_all_helpers "Get_EnumMatcher") as (text & I & _); [repeat ((left; reflexivity) || right)|].
  exists "Get_EnumMatcher", text. split; [exact I|]. split; [repeat ((left; reflexivity) || right)|].
  intros sel S H. apply missing_exactly; [exact S|]. exists ("Get_EnumMatcher", text). split; [exact H|]. left. reflexivity.
Qed.
Print Assumptions C132_complete_refuted.
(** A converted file of a directory gets the helpers by [from paddle_utils import *]: every name of a helper
    that a generated text reads arrives, but for three. *)
Theorem C132_brought : forall r g recv args kwargs i q u w,
  In r api_mapping -> generator r = Some g -> regular r recv args kwargs ->
  paddle_nodes r g recv args kwargs i = Ret (Converted q u) -> In w (own_words q) -> helper_defines r w ->
  (forall sel c text, r_matcher r = Some c -> In (c, text) sel -> In (c, text) helper_texts -> In w (binds_all text) -> In w (star_names (texts_of sel))) \/
  In (r_name r, w) not_brought.
Proof.
  intros r g recv args kwargs i q u w I G R P W H. destruct (exported w) eqn:X.
  - left. intros sel c text M S T B. unfold star_names. apply filter_In. split; [|exact X].
    apply binds_texts. right. exists (c, text). tauto.
  - right. apply (names_not_brought r g recv args kwargs i q u w); assumption.
Qed.
Print Assumptions C132_brought.
(** Those three never arrive, whatever the helper file holds. *)
Theorem C132_hidden_refuted : forall n w, In (n, w) not_brought ->
  reads n w true /\ (exists r, In r api_mapping /\ r_name r = n /\ helper_defines r w) /\ forall l, ~ In w (star_names l).
Proof.
  assert (K : forall n w c text, row_matcher n = Some c -> In (c, text) helper_texts -> In w (binds_all text) -> exists r, In r api_mapping /\ r_name r = n /\ helper_defines r w).
  { intros n w c text. unfold row_matcher. destruct (find _ api_mapping) as [r|] eqn:F; [|discriminate]. apply find_some in F. destruct F as [I N]. apply String.eqb_eq in N.
    intros M T B. exists r. split; [exact I|]. split; [exact N|]. exists c, text. tauto. }
  assert (S : forall w l, exported w = false -> ~ In w (star_names l)).
  { intros w l X H. unfold star_names in H. apply filter_In in H. destruct H as [_ H]. rewrite X in H. discriminate H. }
  assert (D : forall c w, existsb (fun ct => String.eqb (fst ct) c && mem w (binds_all (snd ct))) helper_texts = true -> exists text, In (c, text) helper_texts /\ In w (binds_all text)).
  { intros c w H. apply existsb_exists in H. destruct H as ([c' text] & I & H). cbn [fst snd] in H. apply Bool.andb_true_iff in H. destruct H as [E B].
    apply String.eqb_eq in E. subst c'. exists text. split; [exact I|apply mem_In, B]. }
  intros n w [H|[H|[H|[]]]]; injection H as <- <-.
  - split; [apply (readsb_ok _ [("input", "x")]); vm_compute; reflexivity|]. split; [|intros l; apply S; reflexivity].
    destruct (D "FSoftMinMatcher" "_get_softmin_dim") as (t & T & B); [vm_compute; reflexivity|]. apply (K _ _ "FSoftMinMatcher" t); [vm_compute; reflexivity|assumption|assumption].
  - split; [apply (readsb_ok _ [("int", "4")]); vm_compute; reflexivity|]. split; [|intros l; apply S; reflexivity].
    destruct (D "SetNumInteropThreadsMatcher" "_set_num_interop_threads") as (t & T & B); [vm_compute; reflexivity|]. apply (K _ _ "SetNumInteropThreadsMatcher" t); [vm_compute; reflexivity|assumption|assumption].
  - split; [apply (readsb_ok _ [("int", "4")]); vm_compute; reflexivity|]. split; [|intros l; apply S; reflexivity].
    destruct (D "SetNumThreadsMatcher" "_set_num_threads") as (t & T & B); [vm_compute; reflexivity|]. apply (K _ _ "SetNumThreadsMatcher" t); [vm_compute; reflexivity|assumption|assumption].
Qed.
Print Assumptions C132_hidden_refuted.
(** One such file: nothing in it, and nothing that any helper file gives it, is called "_set_num_threads". *)
Definition threads_file : list node :=
  [Import [MkAlias "torch" None]; PropertiesDepend.statement (Call (path ["set_num_threads"] (Name "torch")) [Other "Constant" [Data "value" "4"]] [])].
Theorem C132_threads_refuted : exists l,
  missing threads_file = [] /\ converted_body threads_file = Some l /\ In star_import l /\
  In "_set_num_threads" (missing l) /\ forall helper, ~ In "_set_num_threads" (star_names helper).
Proof.
  eexists. split; [vm_compute; reflexivity|]. split; [vm_compute; reflexivity|]. split; [left; reflexivity|]. split; [vm_compute; left; reflexivity|].
  intros helper. apply (C132_hidden_refuted "torch.set_num_threads" "_set_num_threads"). right. right. left. reflexivity.
Qed.
Print Assumptions C132_threads_refuted.

(** Two helpers in both orders, one of them twice. *)
Example C132_nonvacuous :
  let cell := ("LSTMCellMatcher", helper_44) in let threads := ("SetNumThreadsMatcher", helper_38) in
  In cell helper_texts /\ In threads helper_texts /\
  (exists n, In n helper_44 /\ stands_for "LSTMCell" (texts_of [cell; threads]) = Some n /\ stands_for "LSTMCell" (texts_of [threads; cell; threads]) = Some n) /\
  missing (texts_of [cell; threads]) = [] /\ In "LSTMCell" (star_names (texts_of [threads; cell])).
Proof.
  split; [repeat ((left; reflexivity) || right)|]. split; [repeat ((left; reflexivity) || right)|].
  split; [exists (hd import_paddle helper_44); split; [left; reflexivity|split; vm_compute; reflexivity]|].
  split; [vm_compute; reflexivity|]. apply mem_In. vm_compute. reflexivity.
Qed.

(** ** C133: the names of helpers and packages in a file that uses them for something of its own *)
(** What a name stands for after the statements of a converted file ran, when the helper file consists of
    [helper]: [from paddle_utils import *] binds what the helper file exports (Python reference, 7.11). *)
Fixpoint stands_in (helper : list node) (x : string) (l : list node) : option node :=
  match l with
  | [] => None
  | n :: l' =>
      match stands_in helper x l' with
      | Some r => Some r
      | None => if node_eqb n star_import then (if exported x then stands_for x helper else None)
                else if mem x (keys_of n) then Some n else None
      end
  end.
Lemma stands_in_none helper x l : (forall n, In n l -> n <> star_import -> ~ In x (keys_of n)) -> forall r,
  stands_in helper x l = Some r -> stands_for x helper = Some r.
Proof.
  induction l as [|m l IH]; cbn [stands_in]; intros H r E; [discriminate|].
  destruct (stands_in helper x l) as [r'|] eqn:S.
  - apply IH; [intros n N; apply H; right; exact N|congruence].
  - destruct (node_eqb m star_import) eqn:K; [destruct (exported x); [exact E|discriminate]|].
    destruct (mem x (keys_of m)) eqn:M; [|discriminate]. exfalso. apply mem_In in M. apply (H m (or_introl eq_refl)); [|exact M].
    intros ->. assert (node_eqb star_import star_import = true) by reflexivity. congruence.
Qed.
(** In a file with none of its own of that name, whichever helpers were written, an exported name of a
    helper means the helper. *)
Theorem C133_helper_meant : forall sel l n x, (forall ct, In ct sel -> In ct helper_texts) ->
  In star_import l -> (forall m, In m l -> m <> star_import -> ~ In x (keys_of m)) ->
  In n (texts_of sel) -> In x (keys_of n) -> exported x = true ->
  stands_in (texts_of sel) x l = Some n.
Proof.
  intros sel l n x S I H N X E.
  assert (F : stands_for x (texts_of sel) = Some n).
  { apply stands_own; [|exact N|exact X]. intros m [<-|M]; [left; reflexivity|right]. apply in_flat_map in M. destruct M as ([c t] & C & M). exists c, t. split; [apply S, C|exact M]. }
  assert (G : exists r, stands_in (texts_of sel) x l = Some r).
  { clear H N X. induction l as [|m l IH]; [destruct I|]. cbn [stands_in]. destruct (stands_in (texts_of sel) x l) as [r|] eqn:Q; [exists r; reflexivity|].
    destruct I as [->|I]; [|destruct (IH I); discriminate]. assert (K : node_eqb star_import star_import = true) by reflexivity. rewrite K, E. exists n. exact F. }
  destruct G as [r G]. rewrite G. apply (stands_in_none _ _ _ H) in G. congruence.
Qed.
Print Assumptions C133_helper_meant.
(** A class of the user's own that wraps the cell of torch, under the same name. *)
Definition own_cell (cell : node) (base : node) : node :=
  Other "ClassDef" [Data "name" "LSTMCell"; Many "bases" [base]; Many "keywords" []; Many "body" [
    Other "FunctionDef" [Data "name" "__init__"; One "args" (Other "arguments" [Many "args" [Other "arg" [Data "arg" "self"]]]); Many "body" [
      Other "Assign" [Many "targets" [Attribute (Name "self") "cell"]; One "value" cell]]; Many "decorator_list" []]];
    Many "decorator_list" []].
Definition four : node := Other "Constant" [Data "value" "4"].
Definition cell_file : list node := [Import [MkAlias "torch" None]; own_cell (Call (path ["nn"; "LSTMCell"] (Name "torch")) [four; four] []) (path ["nn"; "Module"] (Name "torch"))].
(** Expected but not true: the new class still wraps the cell of the library.  Its [__init__] now calls
    "LSTMCell", which is the class itself, whatever the helper file holds. *)
Theorem C133_capture_refuted : exists l,
  let own := own_cell (Call (Name "LSTMCell") [] [PropertiesDepend.keyword "input_size" four; PropertiesDepend.keyword "hidden_size" four]) (path ["nn"; "Module"] (Name "paddle")) in
  converted_body cell_file = Some l /\ In own l /\ forall helper, stands_in helper "LSTMCell" l = Some own.
Proof.
  eexists. split; [vm_compute; reflexivity|]. split; [do 2 right; left; reflexivity|]. intros helper. vm_compute. reflexivity.
Qed.
Print Assumptions C133_capture_refuted.
(** The same for the package: a variable "paddle" of the user's own, as in a game, is what every converted
    call asks. *)
Definition game_file : list node :=
  [Import [MkAlias "os" None]; Import [MkAlias "torch" None]; Other "Assign" [Many "targets" [Name "paddle"]; One "value" four];
   Other "Assign" [Many "targets" [Name "n"];
     One "value" (Call (path ["environ"; "get"] (Name "os")) [Other "Constant" [Data "value" (PropertiesHelpers2.quoted "WORLD_SIZE")]] [])]].
Theorem C133_package_refuted : exists l,
  converted_body game_file = Some l /\
  In (Other "Assign" [Many "targets" [Name "n"]; One "value" (Call (path ["distributed"; "get_world_size"] (Name "paddle")) [] [])]) l /\
  forall helper, stands_in helper "paddle" l = Some (Other "Assign" [Many "targets" [Name "paddle"]; One "value" four]).
Proof.
  eexists. split; [vm_compute; reflexivity|]. split; [repeat ((left; reflexivity) || right)|]. intros helper. vm_compute. reflexivity.
Qed.
Print Assumptions C133_package_refuted.
Example C133_nonvacuous :
  let sel := [("LSTMCellMatcher", helper_44); ("SetNumThreadsMatcher", helper_38)] in
  let l := [star_import; import_paddle; PropertiesDepend.statement (Call (Name "LSTMCell") [] [])] in
  (forall ct, In ct sel -> In ct helper_texts) /\ In star_import l /\ (forall m, In m l -> m <> star_import -> ~ In "LSTMCell" (keys_of m)) /\
  exists n, In n (texts_of sel) /\ In "LSTMCell" (keys_of n) /\ exported "LSTMCell" = true.
Proof.
  cbv zeta. split; [intros ct [<-|[<-|[]]]; repeat ((left; reflexivity) || right)|]. split; [left; reflexivity|].
  split; [intros m [<-|[<-|[<-|[]]]] K H; [destruct (K eq_refl)|apply mem_In in H; vm_compute in H; discriminate H|apply mem_In in H; vm_compute in H; discriminate H]|].
  exists (hd import_paddle helper_44). split; [right; left; reflexivity|]. split; [apply mem_In; vm_compute; reflexivity|reflexivity].
Qed.
