(** The command line (C122). *)
From Coq Require Import Permutation Lia.
From Verif Require Import PyStr PyDict TablesData Ast TextSpec TextFacts UtilsFile BasicPass Converter Shipped Program Main MainFacts.
From Verif Require FileTree FileTreeSpec FileTreeFacts FileTreeMirror FileTreeRun PropertiesProgram ImportPass ImportSpec PropertiesImport.
Import FileTree FileTreeSpec FileTreeFacts FileTreeMirror FileTreeRun.
Open Scope list_scope.
Opaque api_mapping attribute_mapping alias_mapping wildcard_mapping matcher_classes torch_package_mapping.

(** ** C122 *)
(** With [--no_format] or [--mode min] two pairs of formatters give the same result for a
    directory: the same outcome, and the same disk except for the text of paddle_utils.py of
    the output. *)
Theorem C122_unformatted_directory : forall L b i b' i' cwd package o src f w r w' r',
  no_format_flag o = true \/ mode_is_min o = true ->
  separate_convert o = false -> run_check o = false -> in_dir o = Some src -> f @@ src = Some Dir ->
  command (with_formatters L b i) cwd package o (FileTree.MkWorld f []) = (w, r) ->
  command (with_formatters L b' i') cwd package o (FileTree.MkWorld f []) = (w', r') ->
  r = r' /\ forall p, p <> "paddle_utils.py"%string :: destination cwd (out_dir o) -> disk w @@ p = disk w' @@ p.
Proof.
  intros L b i b' i' cwd package o src f w r w' r' F S R D Ds H H'.
  unfold command in H, H'. rewrite S, R, D in H, H'. set (o' := o) in H' at 1.
  set (M := configured L o).
  change (configured (with_formatters L b i) o) with (with_formatters M b i) in H.
  change (configured (with_formatters L b' i') o') with (with_formatters M b' i') in H'. clear o'.
  assert (U : unformatted M = true).
  { unfold M, configured. cbn [unformatted]. destruct F as [->| ->]; [destruct (mode_is_min o); reflexivity|destruct (no_format_flag o); reflexivity]. }
  assert (K : alike ("paddle_utils.py"%string :: destination cwd (out_dir o))
    (program (with_formatters M b i) cwd src (out_dir o) (exclude o) (FileTree.MkWorld f []))
    (program (with_formatters M b' i') cwd src (out_dir o) (exclude o) (FileTree.MkWorld f []))).
  { unfold program. cbn [listing found isort limit with_formatters]. change (registry (with_formatters M b' i')) with (registry (with_formatters M b i)).
    rewrite (run_ext (convert_text (converter_setup (with_formatters M b' i'))) (convert_text (converter_setup (with_formatters M b i))))
      by (intros ex file s c; apply unformatted_text; exact U).
    apply run_isort. exact Ds. }
  apply (alike_then _ _ _ (fun c => [(""%string, c)])) in K. rewrite H, H' in K. exact K.
Qed.
Print Assumptions C122_unformatted_directory.

(** A single file without helper code: the same disk altogether. *)
Theorem C122_unformatted_file : forall L b i b' i' cwd package o src f w r w' r' c,
  no_format_flag o = true \/ mode_is_min o = true ->
  separate_convert o = false -> run_check o = false -> in_dir o = Some src ->
  command (with_formatters L b i) cwd package o (FileTree.MkWorld f []) = (w, r) ->
  command (with_formatters L b' i') cwd package o (FileTree.MkWorld f []) = (w', r') ->
  r = Ok [(""%string, c)] -> registry L c = [] -> r' = r /\ w' = w.
Proof.
  intros L b i b' i' cwd package o src f w r w' r' c F S R D H H' Er N.
  unfold command in H, H'. rewrite S, R, D in H, H'. set (o' := o) in H' at 1.
  set (M := configured L o).
  change (configured (with_formatters L b i) o) with (with_formatters M b i) in H.
  change (configured (with_formatters L b' i') o') with (with_formatters M b' i') in H'. clear o'.
  assert (U : unformatted M = true).
  { unfold M, configured. cbn [unformatted]. destruct F as [->| ->]; [destruct (mode_is_min o); reflexivity|destruct (no_format_flag o); reflexivity]. }
  unfold FileTree.bind in H, H'. unfold program in H, H'. cbn [listing found isort limit with_formatters] in H, H'.
  rewrite (run_ext (convert_text (converter_setup (with_formatters M b' i'))) (convert_text (converter_setup (with_formatters M b i)))) in H'
    by (intros ex file s x; apply unformatted_text; exact U).
  destruct (run (convert_text (converter_setup (with_formatters M b i))) (registry (with_formatters M b i)) (listing M) (found M) i (limit M) cwd None src
    (out_dir o) (exclude o) (new_converter [] nothing) (FileTree.MkWorld f [])) as [w1 [c1|e]] eqn:Q; [|injection H as <- <-; discriminate].
  injection H as <- <-. injection Er as ->.
  change (registry L c) with (registry (with_formatters M b i) c) in N.
  change (registry (with_formatters M b' i')) with (registry (with_formatters M b i)) in H'.
  pose proof (run_isort_nothing _ _ _ _ _ i i' _ _ _ _ _ _ _ _ _ Q N) as Q'. rewrite Q' in H'. injection H' as <- <-. auto.
Qed.
Print Assumptions C122_unformatted_file.

(** With formatting, a formatter that raises an exception is as good as one that leaves the
    text alone; no file is lost. *)
Definition at_worst_unchanged (g : string -> option string) : string -> option string := fun s => Some (match g s with Some t => t | None => s end).
Theorem C122_failing_formatters_do_no_harm : forall L b i cwd package o w,
  separate_convert o = false ->
  command (with_formatters L b i) cwd package o w = command (with_formatters L (at_worst_unchanged b) (at_worst_unchanged i)) cwd package o w.
Proof.
  intros L b i cwd package o w S. unfold command. rewrite S. set (M := configured L o).
  change (configured (with_formatters L b i) o) with (with_formatters M b i).
  change (configured (with_formatters L (at_worst_unchanged b) (at_worst_unchanged i)) o) with (with_formatters M (at_worst_unchanged b) (at_worst_unchanged i)).
  assert (P : forall src out ex w, program (with_formatters M b i) cwd src out ex w = program (with_formatters M (at_worst_unchanged b) (at_worst_unchanged i)) cwd src out ex w).
  { intros src out ex w0. unfold program. cbn [listing found isort limit with_formatters].
    rewrite (run_ext _ (convert_text (converter_setup (with_formatters M (at_worst_unchanged b) (at_worst_unchanged i)))))
      by (intros e file s c; apply formatted_text; intros x; unfold or_same, at_worst_unchanged; reflexivity).
    apply run_isort_ext. intros x. reflexivity. }
  destruct (run_check o); [apply bind_ext; [apply P|reflexivity]|]. destruct (in_dir o) as [src|]; [apply bind_ext; [apply P|reflexivity]|reflexivity].
Qed.
Print Assumptions C122_failing_formatters_do_no_harm.

(** A single file whose code needs a helper function goes through [isort] in spite of
    [--no_format] and [--mode min]. *)
Definition ex_options (src dst : path) (min fmt : bool) : options := MkOptions (Some src) (Some dst) None min fmt false false false.
Definition ex_isort (s : string) : option string := Some ("# sorted" ++ nls ++ s)%string.
Definition ex_file : fs := [([], Dir); (["a.py"%string], File "import torch")].
Theorem C122_helpers_bring_isort_refuted : forall min, exists w w' c c',
  command (with_formatters PropertiesProgram.ex_libraries (fun _ => None) (fun _ => None)) [] [] (ex_options ["a.py"%string] ["b.py"%string] min true) (FileTree.MkWorld ex_file [])
    = (w, Ok [(""%string, c)]) /\
  command (with_formatters PropertiesProgram.ex_libraries (fun _ => None) ex_isort) [] [] (ex_options ["a.py"%string] ["b.py"%string] min true) (FileTree.MkWorld ex_file [])
    = (w', Ok [(""%string, c')]) /\
  exists text, disk w @@ ["b.py"%string] = Some (File text) /\ disk w' @@ ["b.py"%string] = Some (File ("# sorted" ++ nls ++ text)).
Proof.
  intros min. destruct min; do 4 eexists; (split; [vm_compute; reflexivity|split; [vm_compute; reflexivity|eexists; split; vm_compute; reflexivity]]).
Qed.
Print Assumptions C122_helpers_bring_isort_refuted.

(** A directory, with [--mode min] and with [--no_format]; the formatters differ, and without
    the options they make a difference. *)
Example C122_nonvacuous :
  let o := ex_options ["in"%string] ["out"%string] in
  let L := with_formatters PropertiesProgram.ex_libraries (fun s => Some (s ++ nls)%string) ex_isort in
  (exists w c, command L [] [] (o true false) (FileTree.MkWorld PropertiesProgram.ex_files []) = (w, Ok [(""%string, c)]) /\
     disk w @@ ["a.py"; "out"]%string = Some (File "converted")) /\
  (exists w c, command L [] [] (o false true) (FileTree.MkWorld PropertiesProgram.ex_files []) = (w, Ok [(""%string, c)]) /\
     disk w @@ ["a.py"; "out"]%string = Some (File "converted")) /\
  (exists w c, command L [] [] (o false false) (FileTree.MkWorld PropertiesProgram.ex_files []) = (w, Ok [(""%string, c)]) /\
     disk w @@ ["a.py"; "out"]%string = Some (File ("# sorted" ++ nls ++ "converted" ++ nls))).
Proof. cbv zeta. split; [|split]; do 2 eexists; (split; vm_compute; reflexivity). Qed.

(** ** C38 for the command *)
(** With [--mode min --only_complete] the text of a Python file is the print of a tree that has
    the import statements of the file, unchanged and in order, behind the inserted ones. *)
Theorem C38_min_mode_command : forall L o ex file bytes code c text c' body,
  mode_is_min o = true -> only_complete_flag o = true -> endswith file ".py" = true ->
  reads_text bytes code -> parse_file L code = Ok (ImportSpec.module body) -> ImportSpec.program body ->
  (forall i, In i (ImportSpec.imports_of (ImportSpec.module body)) -> ImportSpec.unrenamed (ImportPass.MkEnv true file ex) i) ->
  convert_text (converter_setup (configured L o)) ex file bytes c = Ok (text, c') ->
  exists out pkgs, print_file L out = Ok text /\
    ImportSpec.imports_of out = map (fun p => Import [MkAlias p None]) pkgs ++ ImportSpec.imports_of (ImportSpec.module body).
Proof.
  intros L o ex file bytes code c text c' body M O F Tx Pa G Un H. unfold convert_text in H. rewrite F in H.
  apply read_text_spec in Tx. rewrite Tx in H. cbn [Ast.bind] in H. unfold convert_python in H.
  change (py_parse (converter_setup (configured L o)) code) with (parse_file L code) in H. rewrite Pa in H. cbn [Ast.bind] in H.
  unfold transfer_node in H.
  change (mode_min (converter_setup (configured L o))) with (mode_is_min o) in H. rewrite M in H.
  change (only_complete (converter_setup (configured L o))) with (only_complete_flag o) in H. rewrite O in H.
  match type of H with context [ImportPass.import_transform ?e ?r ?t] => destruct (ImportPass.import_transform e r t) as [[out i]|x] eqn:E end; [|discriminate].
  cbn [Ast.bind] in H. change (py_unparse (converter_setup (configured L o)) out) with (print_file L out) in H.
  destruct (print_file L out) as [t|x] eqn:Pr; [|discriminate]. cbn [Ast.bind] in H.
  change (no_format (converter_setup (configured L o))) with (unformatted (configured L o)) in H.
  assert (N : unformatted (configured L o) = true) by (unfold configured, unformatted; rewrite M; destruct (no_format_flag o); reflexivity).
  rewrite N in H. injection H as <- <-.
  destruct (PropertiesImport.C38_min_mode_keeps_imports (ImportPass.MkEnv true file ex) _ _ _ _ G eq_refl Un E) as [pkgs K]. exists out, pkgs. auto.
Qed.
Print Assumptions C38_min_mode_command.
(** The file "import torch" keeps its import. *)
Example C38_command_nonvacuous :
  let L := PropertiesProgram.ex_libraries in
  let L1 := MkLibraries (matchers L) false false (fun l => l) 100 (fun _ => Ok (ImportSpec.module [Import [MkAlias "torch" None]]))
    (fun n => Ok (match n with Other _ (Many _ [Import [a]; Import [b]] :: _) => al_name a ++ "," ++ al_name b | _ => "?" end)%string) (fun _ => None) (fun _ => None)
    (hash L) 5 (listing L) (found L) in
  let o := MkOptions None None None true false true false false in
  ImportSpec.program [Import [MkAlias "torch" None]] /\
  (forall i, In i (ImportSpec.imports_of (ImportSpec.module [Import [MkAlias "torch" None]])) -> ImportSpec.unrenamed (ImportPass.MkEnv true "/a.py" (fun _ => false)) i) /\
  exists c', convert_text (converter_setup (configured L1 o)) (fun _ => false) "/a.py" "import torch" (new_converter [] nothing) = Ok ("paddle,torch"%string, c').
Proof.
  cbn zeta. split; [PropertiesImport.program_tac|]. split; [|eexists; vm_compute; reflexivity].
  intros i [<-|[]]. split; [discriminate|]. intros a [<-|[]]. split; [reflexivity|]. left. vm_compute. reflexivity.
Qed.
