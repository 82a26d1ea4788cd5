(** Projects without torch, from the disk to the disk (C125). *)
From Coq Require Import ZArith.
From Verif Require Import PyStr PyDict UtilsFile TablesData Lookup Ast ImportPass ImportSpec WalkBridge BasicPass CustomPass Converter
  QuietSpec Shipped Program PropertiesImport PropertiesQuiet QuietProject.
From Verif Require FileTree FileTreeSpec FileTreeMirror PropertiesFiles PyStrFacts.
Import FileTree FileTreeSpec FileTreeMirror.
Open Scope string_scope.
Opaque api_mapping attribute_mapping alias_mapping wildcard_mapping matcher_classes torch_package_mapping.

(** ** C125 *)
(** A directory whose Python files import no torch package.  Every file that takes part is in
    the output: a Python file as its tree is printed and formatted, requirements.txt with torch
    replaced, any other file as it is.  Nothing else on the disk changes but the directories
    made for them; there is no paddle_utils.py, and nothing is counted. *)
Theorem C125_copied : forall L cwd src out exclude f w c',
  let dst := destination cwd out in
  let takes_part := reached (is_excluded (found L) exclude) f src in
  sound f -> any_order (listing L) -> some_order (sets L) -> f @@ src = Some Dir -> ~ inside dst src -> ~ inside src dst ->
  (forall rel e, takes_part rel e -> fits e (f @@ (rel ++ dst)%list)) ->
  (forall rel s, takes_part rel (File s) -> exists text, carried_over L (render (rel ++ src)%list) s text) ->
  Program.program L cwd src out exclude (FileTree.MkWorld f []) = (w, Ok c') ->
  (forall rel s text, takes_part rel (File s) -> carried_over L (render (rel ++ src)%list) s text ->
     disk w @@ (rel ++ dst)%list = Some (File text)) /\
  (forall rel, takes_part rel Dir -> rel <> [] -> disk w @@ (rel ++ dst)%list = Some Dir) /\
  (forall p, disk w @@ p <> f @@ p ->
     (exists rel e, takes_part rel e /\ p = (rel ++ dst)%list /\ match e with File _ | Dir => True | _ => False end) \/
     (f @@ p = None /\ disk w @@ p = Some Dir /\ inside dst p)) /\
  c_torch c' = 0%Z /\ c_success c' = 0%Z /\ c_all c' = [] /\ c_unsupported c' = [].
Proof.
  intros L cwd src out exclude f w c' dst tp Sd An Or Ds A B Ft Co H. unfold Program.program in H.
  destruct (PropertiesFiles.C44_output_mirrors_input _ _ _ _ _ _ _ cwd src out exclude _ c' f w Sd An Ds A B Ft H) as ((l & K & N & I & F) & D & Ch).
  fold dst in F, D, Ch. fold tp in I, D, Ch.
  assert (I0 : idle (new_converter [] nothing)) by (unfold idle; cbn; repeat split; reflexivity).
  destruct (idle_all L Or _ src l _ _ K I0) as [Ic Al].
  { intros rel s text J. apply Co. apply I. eauto. }
  assert (Rg : registry L c' = []). { destruct Ic as (_ & _ & _ & _ & _ & Hs). unfold registry. rewrite Hs. reflexivity. }
  split; [|split; [|split]].
  - intros rel s text G W. destruct (proj2 (I rel s) G) as [text' J]. rewrite (carried_once L _ _ _ _ W (Al _ _ _ J)).
    exact (F _ _ _ J (or_introl Rg)).
  - exact D.
  - intros p Np. destruct (Ch p Np) as [Q|[Q|[Q _]]]; [left; exact Q|right; exact Q|contradiction].
  - destruct Ic as (? & ? & ? & ? & _). auto.
Qed.
Print Assumptions C125_copied.
(** If printing and formatting give the files back, and no requirements.txt mentions torch, the
    output is the input. *)
Theorem C125_same : forall L cwd src out exclude f w c',
  let dst := destination cwd out in
  let takes_part := reached (is_excluded (found L) exclude) f src in
  sound f -> any_order (listing L) -> some_order (sets L) -> f @@ src = Some Dir -> ~ inside dst src -> ~ inside src dst ->
  (forall rel e, takes_part rel e -> fits e (f @@ (rel ++ dst)%list)) ->
  (forall rel s, takes_part rel (File s) -> carried_over L (render (rel ++ src)%list) s s) ->
  Program.program L cwd src out exclude (FileTree.MkWorld f []) = (w, Ok c') ->
  forall rel s, takes_part rel (File s) -> disk w @@ (rel ++ dst)%list = f @@ (rel ++ src)%list.
Proof.
  intros L cwd src out exclude f w c' dst tp Sd An Or Ds A B Ft Co H rel s G.
  destruct (C125_copied L cwd src out exclude f w c' Sd An Or Ds A B Ft) as (F & _); [intros r t Q; eauto|exact H|].
  fold dst tp in F. rewrite (F rel s s G (Co _ _ G)). symmetry. clear -G.
  inversion G; subst; cbn in *; assumption.
Qed.
Print Assumptions C125_same.

(** ** A concrete case *)
(** in/a.py (import numpy as np; from collections import OrderedDict; x = np.zeros(n)),
    in/sub/requirements.txt and in/notes.txt. *)
Definition copy_code : string := "import numpy as np; from collections import OrderedDict; x = np.zeros(n)".
Definition copy_libraries : libraries :=
  MkLibraries (MkTools (fun _ => "?") (fun s => Ok [Name s]) (fun c => c) [] false) false true (fun l => l) 100
    (fun s => if String.eqb s copy_code then Ok (module ex42) else Ok (module []))
    (fun n => match n with Other "Module" [Many "body" []] => Ok "" | _ => Ok copy_code end)
    (fun _ => None) (fun _ => None) (fun _ => 0%Z) 5 (fun _ _ l => l) PropertiesFiles.literal.
Definition copy_files : fs :=
  [([], Dir); (["in"], Dir); (["a.py"; "in"], File copy_code); (["sub"; "in"], Dir);
   (["requirements.txt"; "sub"; "in"], File "torch"); (["notes.txt"; "in"], File "torch")].
Lemma copy_reached rel e : reached (is_excluded PropertiesFiles.literal None) copy_files ["in"] rel e ->
  In (rel, e) [([], Dir); (["a.py"], File copy_code); (["sub"], Dir); (["requirements.txt"; "sub"], File "torch"); (["notes.txt"], File "torch")].
Proof.
  induction 1 as [e H|rel n e H IH V A X]; [injection H as <-; cbn; auto|].
  cbn in IH. repeat (destruct IH as [IH|IH]; [try discriminate IH; injection IH as <-|]); [ | | ].
  - cbn in A.
    destruct (String.eqb_spec n "in"); [subst; cbn in A; discriminate A|].
    destruct (String.eqb_spec n "a.py"); [subst; cbn in A; injection A as <-; cbn; auto|].
    destruct (String.eqb_spec n "sub"); [subst; cbn in A; injection A as <-; cbn; auto|].
    destruct (String.eqb_spec n "requirements.txt"); [subst; cbn in A; discriminate A|].
    destruct (String.eqb_spec n "notes.txt"); [subst; cbn in A; injection A as <-; cbn; tauto|]. cbn in A. discriminate.
  - cbn in A. rewrite !andb_false_r in A. cbn in A.
    destruct (String.eqb_spec n "requirements.txt"); [subst; cbn in A; injection A as <-; cbn; tauto|]. cbn in A. discriminate.
  - destruct IH.
Qed.
Ltac local_cases J :=
  repeat (cbn [bindings from_module flat_map upto_local al_name] in J;
          match type of J with context [is_local ?e ?x] => destruct (is_local e x) end).
Lemma copy_python L file : parse_file L copy_code = Ok (module ex42) -> print_file L (module ex42) = Ok copy_code ->
  unformatted L = true -> (depth (module ex42) <= limit L)%nat -> without_torch L file copy_code copy_code.
Proof.
  intros Pa Pr Un De. exists copy_code, ex42, copy_code. split; [apply TextFacts.read_text_spec; vm_compute; reflexivity|]. split; [exact Pa|]. split; [exact Pr|]. split; [unfold layout; rewrite Un; reflexivity|].
  split. { intros (a & b & E). assert (C : contains "Not Support auto convert" copy_code = true).
    { apply PyStrFacts.contains_spec. exists a, b. exact E. } vm_compute in C. discriminate. }
  destruct C42_nonvacuous as (G & _ & _). destruct C42_file_nonvacuous as (W & P & X & _).
  split; [exact G|]. split; [exact W|]. split; [exact De|]. split; [|split; [|split; assumption]].
  - intros ex m H. cbn in H.
    repeat match goal with J : _ \/ _ |- _ => destruct J as [<-|J] | J : False |- _ => contradiction J end; cbn [safe]; try exact I;
      try (intro Q; vm_compute in Q; intuition discriminate).
    + intros x full J. exfalso. local_cases J; vm_compute in J; contradiction.
    + split; [|discriminate]. intros x full J. exfalso. local_cases J; vm_compute in J; contradiction.
  - intros ex i [<-|[<-|[]]].
    + split; [discriminate|]. split; [cbn [upto_local]; destruct (is_local _ _); reflexivity|].
      intros a [<-|[]]. right. split; vm_compute; reflexivity.
    + right. split; vm_compute; reflexivity.
Qed.
Example C125_nonvacuous : exists w c',
  let f := copy_files in let takes_part := reached (is_excluded (found copy_libraries) None) f ["in"] in
  sound f /\ any_order (listing copy_libraries) /\ some_order (sets copy_libraries) /\ f @@ ["in"] = Some Dir /\
  ~ inside ["out"] ["in"] /\ ~ inside ["in"] ["out"] /\
  (forall rel e, takes_part rel e -> fits e (f @@ (rel ++ ["out"])%list)) /\
  (forall rel s, takes_part rel (File s) -> exists text, carried_over copy_libraries (render (rel ++ ["in"])%list) s text) /\
  Program.program copy_libraries [] ["in"] (Some ["out"]) None (FileTree.MkWorld f []) = (w, Ok c') /\
  disk w @@ ["a.py"; "out"] = Some (File copy_code) /\ disk w @@ ["requirements.txt"; "sub"; "out"] = Some (File "paddlepaddle-gpu") /\
  disk w @@ ["notes.txt"; "out"] = Some (File "torch") /\ disk w @@ ["paddle_utils.py"; "out"] = None.
Proof.
  eexists. eexists. cbn zeta. split; [|split; [|split; [|split; [|split; [|split; [|split; [|split; [|split]]]]]]]].
  - unfold sound. cbn. repeat (constructor; [intros J; cbn in J; intuition discriminate|]). constructor.
  - intros f p l. apply Permutation.Permutation_refl.
  - intros l x. reflexivity.
  - reflexivity.
  - intros [[|? [|? ?]] E]; discriminate E.
  - intros [[|? [|? ?]] E]; discriminate E.
  - intros rel e G. apply copy_reached in G. cbn in G.
    repeat (destruct G as [G|G]; [injection G as <- <-; exact I|]). destruct G.
  - intros rel s G. apply copy_reached in G. cbn in G.
    repeat (destruct G as [G|G]; [try discriminate G; injection G as <- <-|]); [ | | |destruct G].
    + eexists. apply copy_python; try reflexivity. cbn. repeat constructor.
    + eexists. eexists. split; [apply TextFacts.read_text_spec; vm_compute; reflexivity|reflexivity].
    + eexists. reflexivity.
  - vm_compute. reflexivity.
  - repeat split.
Qed.
