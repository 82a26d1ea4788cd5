(** C84, C85 and the order of C05: custom operator classes, --exclude_packages, names by
    length. *)
From Coq Require Import ZArith Permutation Sorted.
From Verif Require Import PyStr PyDict Ast ImportPass ImportSpec Walk BasicPass CustomPass Converter CustomSpec CustomFacts.
Open Scope string_scope.

(** ** C84 *)
(** The second pass deletes the remembered classes, with what is in them, and no other
    class; the rest stay in their order. *)
Theorem C84_exactly_the_remembered_classes_go :
  forall limit root (s : bst_c) root' s',
  records s = [] -> labelled root -> statements_outside root ->
  run_custom custom_post limit root s = Ok (root', s') ->
  classes root' = classes_but (dkeys (autograd (shared s))) root.
Proof. exact custom_classes. Qed.
Print Assumptions C84_exactly_the_remembered_classes_go.

(** The first pass remembers a class exactly when an attribute of a name that stands for
    an extension is met inside it and it derives from PyLayer. *)
Theorem C84_remembered_exactly_when_used :
  forall n stack (s : bst_c) r s',
  pre_custom_post n stack s = Ok (r, s') ->
  forall id,
  In id (dkeys (autograd (shared s'))) <->
  In id (dkeys (autograd (shared s))) \/
  exists i a f, n = Attribute (Name i) a /\ extension_name (shared s) i /\
                In f stack /\ pylayer (e_node f) /\ object_id (e_node f) = id.
Proof. exact remembered_step. Qed.
Print Assumptions C84_remembered_exactly_when_used.

(** Those names are the ones that imports of the extension and results of [load] are given,
    under whatever name. *)
Theorem C84_names_of_extensions :
  forall n stack (s : bst_c) r s',
  pre_custom_post n stack s = Ok (r, s') ->
  forall i, extension_name (shared s') i <-> extension_name (shared s) i \/ names_extension (shared s) n i.
Proof. exact extension_names_step. Qed.
Print Assumptions C84_names_of_extensions.
(** The imports of extensions are taken away, the others stay. *)
Theorem C84_imports_of_extensions_go : forall l stack (s : bst_c) r s',
  pre_custom_post (Import l) stack s = Ok (r, s') ->
  exists kept, (forall a, In a kept <-> In a l /\ ~ In (al_name a) (extensions (shared s))) /\
    r = Reply (match kept with [] => VNone | _ => VNode (Import kept) end).
Proof.
  intros l stack s r s' E. cbn [pre_custom_post] in E. pose proof (split_imports_names l (shared s)) as A.
  destruct (split_imports l (shared s)) as [kept c]. destruct A as (A & _). injection E as <- _. exists kept. split; [|reflexivity].
  intros a. rewrite A, filter_In. destruct (mem_str (al_name a) (extensions (shared s))) eqn:M; cbn [negb].
  - apply PyStrFacts.mem_str_In in M. split; [intros [_ H]; discriminate H|tauto].
  - apply PyStrFacts.mem_str_false in M. tauto.
Qed.
Print Assumptions C84_imports_of_extensions_go.

(** A file with two classes, the first of which uses the extension [my_ext]. *)
Definition class (id name : string) (bases body : list node) : node :=
  Other "ClassDef" [Data "@id" id; Data "name" name; Many "bases" bases; Many "body" body].
Definition expr (n : node) : node := Other "Expr" [One "value" n].
Definition pylayer_base : node := Attribute (Attribute (Name "paddle") "autograd") "PyLayer".
Definition use (x a : string) : node := expr (Call (Attribute (Name x) a) [] []).
Definition my_op : node := class "1" "MyOp" [pylayer_base] [use "my_ext" "forward"].
Definition other : node := class "2" "Other" [pylayer_base] [class "3" "Inner" [] [use "np" "f"]].
Definition first_state : bst_c := MkBst 0 0 [] [] [] [] (MkCst ["my_ext"] [] [] [] []).
(** The state of the second pass: only the remembered classes are handed over. *)
Definition next_state (s : bst_c) : bst_c :=
  MkBst 0 0 (all_apis s) (unsupported s) [] [] (MkCst ["my_ext"] (autograd (shared s)) [] [] []).
Definition both (root : node) : res (node * bst_c) :=
  let* (root, s) := run_custom pre_custom_post 100 root first_state in
  run_custom custom_post 100 root (next_state s).
Example C84_nonvacuous :
  let root := module [Import [MkAlias "my_ext" None]; my_op; other] in
  (exists s', run_custom pre_custom_post 100 root first_state = Ok (module [my_op; other], s') /\
     dkeys (autograd (shared s')) = ["1"] /\ labelled (module [my_op; other]) /\ statements_outside (module [my_op; other]) /\
     classes_but ["1"] (module [my_op; other]) = ["2"; "3"]) /\
  exists s', both root = Ok (module [other], s').
Proof.
  split; [|eexists; vm_compute; reflexivity].
  eexists. split; [vm_compute; reflexivity|]. split; [reflexivity|]. split; [|split; [|reflexivity]].
  - intros fs H. cbn in H. repeat (destruct H as [H|H]; [try discriminate H; injection H as <-; eauto|]). destruct H.
  - intros v a H. cbn in H. repeat (destruct H as [H|H]; [try discriminate H; injection H as <- <-; reflexivity|]). destruct H.
Qed.

(** The extension under another name, and the result of [load]. *)
Example C84_names_nonvacuous :
  (exists s', both (module [Import [MkAlias "my_ext" (Some "e"); MkAlias "np" None]; class "1" "MyOp" [pylayer_base] [use "e" "forward"]; other]) =
     Ok (module [Import [MkAlias "np" None]; other], s')) /\
  names_extension (shared first_state) (Import [MkAlias "my_ext" (Some "e")]) "e" /\
  exists s', both (module [Other "Assign" [Many "targets" [Name "ops"]; One "value" (Call (Attribute (Attribute (Attribute (Name "paddle") "utils") "cpp_extension") "load") [] [])];
                           class "1" "MyOp" [pylayer_base] [use "ops" "forward"]; other]) =
     Ok (module [Other "Assign" [Many "targets" [Name "ops"]; One "value" (Call (Attribute (Attribute (Attribute (Name "paddle") "utils") "cpp_extension") "load") [] [])]; other], s').
Proof.
  split; [eexists; vm_compute; reflexivity|]. split; [apply by_import_as with "my_ext"; left; reflexivity|]. eexists. vm_compute. reflexivity.
Qed.

(** A removed class may still be used in the same file. *)
Theorem C84_no_use_left_refuted :
  exists root root' s', both root = Ok (root', s') /\ classes root' = [] /\
    In (Attribute (Name "MyOp") "apply") (nodes root').
Proof.
  exists (module [Import [MkAlias "my_ext" None]; my_op; use "MyOp" "apply"]). do 2 eexists.
  split; [vm_compute; reflexivity|]. split; [reflexivity|]. cbn. tauto.
Qed.
Print Assumptions C84_no_use_left_refuted.

(** Importing an unrelated class of the same name from any module is rewritten too. *)
Theorem C84_only_that_class_refuted :
  forall m, exists s' i,
  custom_post (ImportFrom (Some m) [MkAlias "MyOp" None] 0) [] (next_state (MkBst 0 0 [] [] [] [] (MkCst [] [("1", ("MyOp", "my_ext"))] [] [] [])))
    = Ok (Reply VNone, s') /\
  In (Import [MkAlias i None]) (flat_map snd (records s')) /\ i = "my_ext".
Proof. intros m. do 2 eexists. split; [reflexivity|]. split; [left; reflexivity|reflexivity]. Qed.
Print Assumptions C84_only_that_class_refuted.

(** ** C85 *)
(** [exclude_packages]: the option's value is a list of names between commas. *)
Theorem C85_excluded_exactly :
  forall V arg (mapping : dict string V), NoDup (dkeys mapping) ->
  let listed := split_on ","%char arg in
  (NoDup listed -> (forall p, In p listed -> In p (dkeys mapping)) ->
     exclude_packages arg mapping = Ok (filter (fun kv => negb (mem_str (fst kv) listed)) mapping)) /\
  (~ (NoDup listed /\ forall p, In p listed -> In p (dkeys mapping)) ->
     exclude_packages arg mapping = Raise "KeyError").
Proof. intros V arg mapping N. apply pops_spec, N. Qed.
Print Assumptions C85_excluded_exactly.
Example C85_nonvacuous :
  exclude_packages "b,a" [("a", 1); ("b", 2); ("c", 3)] = Ok [("c", 3)] /\
  exclude_packages "a,a" [("a", 1); ("b", 2); ("c", 3)] = Raise "KeyError" /\
  exclude_packages "a, b" [("a", 1); ("b", 2); ("c", 3)] = Raise "KeyError".
Proof. repeat split. Qed.

(** ** C05 *)
(** The names are masked longest first: same names, lengths never increasing, names of one
    length in the order they were kept. *)
Theorem C05_longest_first :
  forall l,
  Permutation l (by_length l) /\
  StronglySorted (fun x y => (String.length y <= String.length x)%nat) (by_length l) /\
  forall n, filter (fun y => Nat.eqb (String.length y) n) (by_length l) = filter (fun y => Nat.eqb (String.length y) n) l.
Proof. exact by_length_spec. Qed.
Print Assumptions C05_longest_first.
Example C05_longest_first_nonvacuous : by_length ["a.b"; "a.b.c"; "x.y"; "a.b.c.d"] = ["a.b.c.d"; "a.b.c"; "a.b"; "x.y"].
Proof. reflexivity. Qed.
