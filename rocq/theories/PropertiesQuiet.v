(** C42: files without torch. *)
From Coq Require Import ZArith.
From Verif Require Import PyStr PyDict TablesData Lookup Ast ImportPass ImportSpec ImportFacts Walk WalkBridge WalkIdle
  BasicPass CustomPass Converter QuietSpec QuietFacts PropertiesText PropertiesImport PropertiesConverter.
Open Scope string_scope.
Opaque api_mapping attribute_mapping alias_mapping wildcard_mapping matcher_classes torch_package_mapping.

(** All four passes return the tree as it is and count nothing.  Conditions besides "no
    import of a torch or renamed package": the file is a syntax tree and safe for the
    import pass (C60), its depth is within the recursion limit, the project has no C++
    extensions, and the file does not ask [hasattr] about a torch package. *)
Theorem C42_file_unchanged : forall M (u : setup M) ex file body c,
  let e := MkEnv (mode_min u) file ex in
  let root := module body in
  program body -> well_formed root -> some_order (set_order u) -> all_safe e root ->
  (forall f i, file_imports (basic_env u f i) = i) ->
  depth root <= rec_limit u ->
  (forall i, In i (imports_of root) -> plain e i) ->
  no_package_probe root -> no_extension_load root ->
  cpp_extensions u (c_shared c) = [] -> c_autograd c = [] ->
  exists c', transfer_node u ex file root c = Ok (root, c') /\
    c_torch c' = c_torch c /\ c_success c' = c_success c /\ c_all c' = c_all c /\ c_unsupported c' = c_unsupported c /\
    c_autograd c' = c_autograd c /\ c_shared c' = c_shared c /\
    (forall i, dget String.eqb file (c_imports c') = Some i -> torch_packages i = []).
Proof.
  intros M u ex file body c e root G Wf O Sf Env D P Pr Ld X A.
  destruct (C42_import_pass_unchanged e (set_order u) body G O Sf P) as (s & E & I & T & _).
  unfold transfer_node. fold e. unfold root in *. rewrite E. cbn [bind].
  set (c1 := with_import c file s).
  assert (Hi : forall i, dget String.eqb file (c_imports c1) = Some i -> torch_packages i = []).
  { intros i. unfold c1, with_import. cbn [c_imports]. rewrite (PyDictFacts.dget_set_same _ String.eqb_spec). intros [= <-]. exact T. }
  destruct (only_complete u).
  - exists c1. repeat split; auto.
  - assert (Q : exists k fs, module body = Other k fs) by (eexists _, _; reflexivity).
    destruct Q as (k & fs & Q).
    assert (B := basic_calm_all _ Wf Pr). assert (C := custom_calm_all _ Wf Ld).
    assert (B0 : forall p, basic_calm p (module body)) by (intros p; apply (proj1 Wf), self_in).
    assert (C0 : forall p, custom_calm p (module body)) by (intros p; cbn [module custom_calm]; discriminate).
    rewrite Q in *.
    rewrite (basic_quiet (basic_env u file s)); try assumption; try (rewrite Env; assumption); [|reflexivity].
    cbn [bind].
    assert (N : no_extensions (transformer (M := M) (with_matchers (collect c1 (transformer c1 (c_shared c1))) (shared (transformer c1 (c_shared c1))))
                  (globals u (with_matchers (collect c1 (transformer c1 (c_shared c1))) (shared (transformer c1 (c_shared c1))))))).
    { repeat split; assumption. }
    rewrite (custom_quiet pre_custom_post); auto. cbn [bind].
    rewrite (custom_quiet custom_post); auto.
    cbn [bind]. eexists. split; [reflexivity|]. cbn. rewrite !Z.add_0_r. repeat split. exact Hi.
Qed.
Print Assumptions C42_file_unchanged.

(** So the text written is the printed and formatted text of the parsed file, without any mark. *)
Theorem C42_text_only_reformatted : forall M (u : setup M) ex file body code text c,
  let e := MkEnv (mode_min u) file ex in
  let root := module body in
  program body -> well_formed root -> some_order (set_order u) -> all_safe e root ->
  (forall f i, file_imports (basic_env u f i) = i) ->
  depth root <= rec_limit u ->
  (forall i, In i (imports_of root) -> plain e i) ->
  no_package_probe root -> no_extension_load root ->
  cpp_extensions u (c_shared c) = [] -> c_autograd c = [] ->
  py_parse u code = Ok root -> py_unparse u root = Ok text ->
  let formatted := if no_format u then text else or_same (isort_format u) (or_same (black_format u) text) in
  (~ exists a b, formatted = a ++ "Not Support auto convert" ++ b) ->
  exists c', convert_python u ex file code c = Ok (formatted, c').
Proof.
  intros M u ex file body code text c e root G Wf O Sf Env D P Pr Ld X A Ps Un formatted Cl.
  destruct (C42_file_unchanged M u ex file body c G Wf O Sf Env D P Pr Ld X A) as (c' & E & _ & _ & _ & _ & _ & _ & T).
  unfold convert_python. rewrite Ps. cbn [bind]. fold root in E. rewrite E. cbn [bind]. rewrite Un. cbn [bind]. fold formatted.
  destruct (only_complete u); [eauto|].
  assert (K : torch_packages (match dget String.eqb file (c_imports c') with Some i => i | None => ist0 end) = []).
  { destruct (dget _ _ _) eqn:Q; [apply T; reflexivity|reflexivity]. }
  rewrite K, (C04_clean_file_identity _ _ _ Cl). eauto.
Qed.
Print Assumptions C42_text_only_reformatted.

(** The condition about [hasattr] is needed: a file without any import is changed. *)
Definition ex_probe : node :=
  module [Other "Expr" [One "value" (Call (Name "hasattr") [Name "datasets"; Other "Constant" [Data "value" "'x'"]] [])]].
Definition ex_probe_setup : setup nat :=
  MkSetup nat false false true (fun l => l) 100
    (fun file i => MkBenv nat i (fun _ _ => false) (fun _ => false) (fun s => Ok (Name s))
       (fun m _ w => Ok (None, [], w)) (fun m n _ w => Ok (ANothing, [], w))
       (fun m a k _ w => Ok (ANothing, (a, k), [], w)) (fun m f a k _ w => Ok (ANothing, (a, k), [], w)))
    (fun _ => []) (fun _ => Raise "SyntaxError") (fun _ => Ok "") (fun s => Some s) (fun s => Some s).
Lemma ex_probe_run : exists c',
  transfer_node ex_probe_setup (fun _ => false) "/p/a.py" ex_probe (new_converter [] 0%nat)
  = Ok (module [Other "Expr" [One "value" (Call (Name "hasattr") [Name "paddle"; Other "Constant" [Data "value" "'x'"]] [])]], c').
Proof. Transparent torch_package_mapping. eexists. vm_compute. reflexivity. Qed.
Theorem C42_hasattr_refuted : exists M (u : setup M) ex file root root' c c',
  imports_of root = [] /\ transfer_node u ex file root c = Ok (root', c') /\ root' <> root.
Proof.
  destruct ex_probe_run as [c' E]. exists nat, ex_probe_setup, (fun _ => false), "/p/a.py", ex_probe. eexists _, _, _.
  split; [reflexivity|]. split; [exact E|]. discriminate.
Qed.
Print Assumptions C42_hasattr_refuted.

(** The file of [C42_nonvacuous] (import numpy as np; from collections import OrderedDict;
    x = np.zeros(n)) meets the further conditions. *)
Example C42_file_nonvacuous :
  well_formed (module ex42) /\ no_package_probe (module ex42) /\ no_extension_load (module ex42) /\
  depth (module ex42) <= rec_limit ex_probe_setup /\
  (forall f i, file_imports (basic_env ex_probe_setup f i) = i) /\
  cpp_extensions ex_probe_setup (c_shared (new_converter [] 0%nat)) = [].
Proof.
  assert (L : forall (P : node -> Prop), (forall m, In m (nodes (module ex42)) -> P m) <-> Forall P (nodes (module ex42))) by (intros; symmetry; apply Forall_forall).
  repeat split; try reflexivity.
  - intros [<-|[<-|[]]]; revert H; cbn; intuition discriminate.
  - intros ->. revert H. cbn. intuition discriminate.
  - intros names H ->. revert H. cbn. intuition discriminate.
  - intros m names lv H ->. revert H. cbn. intuition discriminate.
  - intros f args kws i H F _. revert H. cbn. intuition discriminate.
  - intros fs f args kws H. revert H. cbn. intros H.
    repeat (destruct H as [H|H]; [try discriminate H|]); try contradiction H.
    injection H as <-. cbn. intros [= <- _ _]. discriminate.
  - cbn. repeat constructor.
Qed.
