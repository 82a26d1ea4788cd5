(** Whole conversions, from the disk to the disk, with the shipped matchers (C119). *)
From Verif Require Import PyStr PyDict UtilsFile TablesData Lookup Ast BasicPass Converter Generate GenerateData GenerateRows GenerateSpec
  Shipped ShippedSpec Program ProgramSpec ProgramFacts.
From Verif Require FileTree FileTreeSpec RegistryFacts PropertiesUtils PropertiesNames.
Import FileTree FileTreeSpec FileTreeMirror UtilsSpec.
Open Scope string_scope.
Opaque api_mapping attribute_mapping alias_mapping wildcard_mapping matcher_classes torch_package_mapping generators.

(** ** C119 *)
(** A directory.  The conversion is a sequence of questions to the matchers, over all its
    files; the helper texts its answers need are the contents of paddle_utils.py of the
    output, each once, between the marks, and nothing else is. *)
Theorem C119_helpers_reach_the_project : forall L cwd src out exclude f w c',
  f @@ src = Some Dir -> no_collision (matchers L) (hash L) ->
  program L cwd src out exclude (FileTree.MkWorld f []) = (w, Ok c') ->
  exists qs texts, asked (matchers L) nothing qs (c_shared c') /\ helper_texts (matchers L) qs texts /\
  (texts = [] \/
   exists body, disk w @@ ("paddle_utils.py" :: destination cwd out)%list = Some (File match isort L body with Some b => b | None => body end) /\
     body = join nls ([(nls ++ "import paddle" ++ nls)%string; START_CONTENT; INIT_CONTENT] ++ texts ++ [END_CONTENT])%list).
Proof.
  intros L cwd src out exclude f w c' D N H. destruct (program_dir L cwd src out exclude f w c' D H N) as (qs & texts & A & B & C).
  exists qs, texts. split; [exact A|]. split; [exact B|]. destruct C as [C|C]; [left; exact C|right; eexists; split; [exact C|reflexivity]].
Qed.
Print Assumptions C119_helpers_reach_the_project.

(** A single file: they are a block in the converted file, which is otherwise the converted
    text line by line. *)
Theorem C119_helpers_reach_the_file : forall L cwd src dst exclude s f w c',
  f @@ src = Some (File s) -> ~ inside dst src -> ~ inside src dst -> f @@ tl dst = Some Dir \/ f @@ tl dst = None ->
  let new := if isdir f dst then (basename src :: dst)%list else dst in
  is_excluded (found L) exclude src = false -> no_collision (matchers L) (hash L) ->
  program L cwd src (Some dst) exclude (FileTree.MkWorld f []) = (w, Ok c') ->
  exists qs texts exists_path text final, asked (matchers L) nothing qs (c_shared c') /\ helper_texts (matchers L) qs texts /\
    looks_at f (fun p => ~ inside dst p) exists_path /\ convert_text (converter_setup L) exists_path (FileTree.render src) s (new_converter [] nothing) = Ok (text, c') /\
    disk w @@ new = Some (File final) /\
    (texts = [] -> final = text) /\
    (texts <> [] -> exists k body, final = match isort L body with Some b => b | None => body end /\ (k <= List.length (splitlines text))%nat /\
       split_on nl body = (or_blank (firstn k (splitlines text)) ++ file_block texts ++ or_blank (skipn k (splitlines text)))%list).
Proof. intros L cwd src dst exclude s f w c' A B D E new F N H. exact (program_file L cwd src dst exclude s f w c' A B D E F H N). Qed.
Print Assumptions C119_helpers_reach_the_file.

(** ** A concrete case *)
Definition shown (n : node) : string := match n with Name i => i | Attribute (Name i) x => i ++ "." ++ x | _ => "?" end.
Definition statement (n : node) : node := Other "Expr" [One "value" n].
Definition ex_tools : tools :=
  MkTools shown (fun s => Ok [statement (Name s)]) (fun c => "# helpers of " ++ c ++ nls) [ImportFrom (Some "paddle_utils") [MkAlias "*" None] 0] false.
Definition ex_tree : node :=
  Other "Module" [Many "body" [Import [MkAlias "torch" None]; statement (Call (Attribute (Name "torch") "can_cast") [Name "x"; Name "y"] [])]].
Fixpoint number (s : string) : Z :=
  match s with EmptyString => 0 | String c r => (Z.of_nat (nat_of_ascii c) + 1 + 257 * number r)%Z end.
Definition ex_libraries : libraries :=
  MkLibraries ex_tools false true (fun l => l) 100 (fun _ => Ok ex_tree) (fun _ => Ok "converted") (fun _ => None) (fun _ => None)
    number 5 (fun _ _ l => l) contains.
Definition ex_files : fs := [([], Dir); (["in"], Dir); (["a.py"; "in"], File "import torch")].
Lemma ex_no_collision : no_collision ex_tools number.
Proof.
  intros texts T. apply PropertiesUtils.trimmed_map in T. subst texts. set (l := map _ _).
  assert (K : forallb (fun x => forallb (fun y => String.eqb x y || negb (number x =? number y)%Z) l) l = true) by (vm_compute; reflexivity).
  intros x y X Y E. rewrite forallb_forall in K. specialize (K x X). rewrite forallb_forall in K. specialize (K y Y).
  rewrite E, Z.eqb_refl in K. destruct (String.eqb_spec x y); [assumption|discriminate].
Qed.
Example C119_nonvacuous :
  exists w c' body,
    program ex_libraries [] ["in"] (Some ["out"]) None (FileTree.MkWorld ex_files []) = (w, Ok c') /\
    no_collision ex_tools number /\
    disk w @@ ["a.py"; "out"] = Some (File "converted") /\
    disk w @@ ["paddle_utils.py"; "out"] = Some (File body) /\ contains "# helpers of CanCastMatcher" body = true /\
    contains "# helpers of GRUCellMatcher" body = false.
Proof. do 3 eexists. split; [vm_compute; reflexivity|]. split; [exact ex_no_collision|]. repeat split; vm_compute; reflexivity. Qed.
Example C119_needs_nonvacuous :
  exists qs w code, asked PropertiesNames.ex_tools nothing qs w /\ needs PropertiesNames.ex_tools qs code.
Proof.
  destruct PropertiesNames.C116_nonvacuous as (q & r & g & c & ns & l & w & Q & G & R & M & W & H & N & A & _).
  exists [(q, nothing, ANodes ns, l)], w, (helper_code PropertiesNames.ex_tools c). split; [exact A|].
  eapply call_needs; try eassumption. left. reflexivity.
Qed.
