(** Several projects in one command, and each of them alone (C126). *)
From Coq Require Import Permutation.
From Verif Require Import PyStr PyDict TablesData Ast ImportPass ImportSpec BasicPass Converter Shipped Program Main MainFacts MainProjects QuietProject PropertiesImport.
From Verif Require FileTree FileTreeSpec FileTreeFacts FileTreeMirror PropertiesDepend PropertiesProjects PropertiesFiles PropertiesCopy.
Import FileTree FileTreeSpec FileTreeFacts FileTreeMirror.
Open Scope list_scope.
Opaque api_mapping attribute_mapping alias_mapping wildcard_mapping matcher_classes torch_package_mapping.

Lemma projects_names L cwd o base ps : forall p w w' r, each_project L cwd o base ps p w = (w', Ok r) -> map fst r = ps.
Proof.
  induction ps as [|n ps IH]; intros p w w' r H; cbn [each_project] in H; [injection H as _ <-; reflexivity|].
  apply FileTreeMirror.bind_ok in H as (w1 & [c p1] & _ & H). apply FileTreeMirror.bind_ok in H as (w2 & rest & H2 & H).
  injection H as _ <-. cbn. rewrite (IH _ _ _ _ H2). reflexivity.
Qed.
Section Alone.
Variable L : libraries.
Variable cwd : path.
Variable o : options.
Variable base : path.
Variable f : fs.
Hypothesis listed : any_order (listing L).
Hypothesis order_ok : some_order (sets L).
Let dst := destination cwd (out_dir o).
Let helpers_file := "paddle_utils.py"%string :: dst.
Hypothesis apart1 : ~ inside dst base.
Hypothesis apart2 : ~ inside base dst.
Let mine n := belongs L o base f n.
(** A process in which nothing was left. *)
Definition untouched (p : process) : Prop := tables p = nothing /\ classes_of_extensions p = [].
(** A conversion in such a process is a conversion in a new one. *)
Lemma alone_step n p w w' c p' :
  convert_in L cwd p (n :: base) (out_dir o) (exclude o) w = (w', Ok (c, p')) -> untouched p ->
  own_file p = None \/ own_file p = Some (helpers_file, true) ->
  disk w @@ (n :: base) = Some Dir ->
  exists w1, Program.program L cwd (n :: base) (out_dir o) (exclude o) (FileTree.MkWorld (disk w) []) = (w1, Ok c) /\ disk w1 = disk w' /\
    tables p' = c_shared c /\ classes_of_extensions p' = c_autograd c.
Proof.
  intros H [T A] Own Dw. unfold convert_in, see in H. rewrite T, A in H.
  change (Shipped.MkWorld (name_counters nothing) [] (Shipped.cpp_extensions nothing)) with nothing in H.
  apply FileTreeMirror.bind_ok in H as (w1 & c1 & R & E). injection E as <- <- <-.
  assert (R0 : Program.program L cwd (n :: base) (out_dir o) (exclude o) w = (w1, Ok c1)).
  { unfold Program.program. destruct Own as [X|X]; rewrite X in R; [exact R|]. rewrite <- R. symmetry.
    apply run_earlier; [exact Dw|apply (apart_src1 cwd o base apart1)]. }
  destruct (run_blind (convert_text (converter_setup L)) (registry L) (listing L) (found L) (isort L) (limit L) cwd None (n :: base) (out_dir o) (exclude o)
    (new_converter [] nothing) w (FileTree.MkWorld (disk w) []) eq_refl) as [Bd Br].
  fold (Program.program L cwd (n :: base) (out_dir o) (exclude o)) in Bd, Br. rewrite R0 in Bd, Br. cbn [fst snd] in Bd, Br.
  destruct (Program.program L cwd (n :: base) (out_dir o) (exclude o) (FileTree.MkWorld (disk w) [])) as [w2 r2]. cbn [fst snd] in Bd, Br. subst r2.
  exists w2. split; [reflexivity|]. split; [congruence|]. split; reflexivity.
Qed.

Hypothesis no_clash : forall n m rel s, mine n rel (File s) -> ~ mine m rel Dir.
Lemma alone_all before n after : forall p w w' r,
  each_project L cwd o base (before ++ n :: after) p w = (w', Ok r) -> untouched p ->
  own_file p = None \/ own_file p = Some (helpers_file, true) ->
  sound (disk w) -> (forall q, inside q base -> disk w @@ q = f @@ q) ->
  (forall m, In m (before ++ n :: after) -> f @@ (m :: base) = Some Dir) ->
  (forall m rel e, In m (before ++ n :: after) -> mine m rel e -> fits e (disk w @@ (rel ++ dst))) ->
  (forall m e, In m (before ++ n :: after) -> ~ mine m ["paddle_utils.py"%string] e) ->
  (forall m rel s, In m before -> mine m rel (File s) -> exists text, carried_over L (render (rel ++ m :: base)) s text) ->
  exists g w1 c r1 r2, Program.program L cwd (n :: base) (out_dir o) (exclude o) (FileTree.MkWorld g []) = (w1, Ok c) /\
    r = r1 ++ (n, c) :: r2 /\ map fst r1 = before /\ map fst r2 = after /\ forall q, inside q base -> g @@ q = f @@ q.
Proof.
  induction before as [|m before IH]; intros p w w' r H U Own Sd Sm Dn Ft Np Co; cbn [app each_project] in H.
  - pose proof (projects_names L cwd o base (n :: after) p w w' r H) as Nm.
    apply FileTreeMirror.bind_ok in H as (w1 & [c p1] & H1 & H). apply FileTreeMirror.bind_ok in H as (w2 & rest & H2 & H).
    injection H as <- <-. cbn [snd fst] in *.
    destruct (alone_step _ _ _ _ _ _ H1 U Own) as (w3 & R & _).
    { rewrite Sm; [apply Dn; left; reflexivity|exists [n]; reflexivity]. }
    exists (disk w), w3, c, [], rest. split; [exact R|]. split; [reflexivity|]. split; [reflexivity|]. split; [injection Nm as Nm; exact Nm|exact Sm].
  - apply FileTreeMirror.bind_ok in H as (w1 & [c p1] & H1 & H). apply FileTreeMirror.bind_ok in H as (w2 & rest & H2 & H).
    injection H as <- <-. cbn [snd fst] in *.
    destruct (project_step L cwd o base f listed apart1 apart2 _ _ _ _ _ _ H1 Own Sd Sm (Dn _ (or_introl eq_refl)) (fun rel e => Ft m rel e (or_introl eq_refl)) (fun e => Np m e (or_introl eq_refl)))
      as (Own1 & Sd1 & Fi & Di & Ch).
    destruct (project_next L cwd o base f apart1 apart2 no_clash m (before ++ n :: after) w w1 Sm Dn Ft Np Fi Di Ch) as [Sm1 Ft1].
    assert (Dw : disk w @@ (m :: base) = Some Dir) by (rewrite Sm; [apply Dn; left; reflexivity|exists [m]; reflexivity]).
    destruct (alone_step _ _ _ _ _ _ H1 U Own Dw) as (w3 & R & _ & T & A).
    assert (To : forall rel e, reached (is_excluded (found L) (exclude o)) (disk w) (m :: base) rel e -> mine m rel e).
    { intros rel e. apply reached_same. intros q. apply Sm. exists (q ++ [m]). rewrite <- app_assoc. reflexivity. }
    assert (I : idle c).
    { refine (program_idle L order_ok cwd (m :: base) (out_dir o) (exclude o) (disk w) w3 c Sd listed Dw _ _ _ _ R).
      - apply (apart_src1 cwd o base apart1).
      - apply (apart_src2 cwd o base apart1 apart2).
      - intros rel e G. apply (Ft m rel e (or_introl eq_refl)), To, G.
      - intros rel s G. apply (Co m rel s (or_introl eq_refl)), To, G. }
    assert (U1 : untouched p1). { destruct I as (_ & _ & _ & _ & Ia & Is). split; congruence. }
    destruct (IH _ _ _ _ H2 U1 (or_intror Own1) Sd1 Sm1 (fun x J => Dn x (or_intror J)) Ft1 (fun x e J => Np x e (or_intror J))
      (fun x rel s J => Co x rel s (or_intror J))) as (g & w4 & c4 & r1 & r2 & P & -> & N1 & N2 & G).
    exists g, w4, c4, ((m, c) :: r1), r2. split; [exact P|]. split; [reflexivity|]. split; [cbn; rewrite N1; reflexivity|]. split; assumption.
Qed.
End Alone.

(** ** C126 *)
(** [--separate_convert] with directories as projects, as in C124.  If the projects before [n]
    import no torch package (C125), the converter of [n] is the one that a command for [n]
    alone has in the end, on the disk the earlier projects left; that disk has the input as it
    was.  Its files, counts and helper code are what they would be alone. *)
Theorem C126_as_if_alone : forall L cwd package opts base f w r before n after,
  let L' := configured L opts in
  let dst := destination cwd (out_dir opts) in
  let belongs n := reached (is_excluded (found L) (exclude opts)) f (n :: base) in
  separate_convert opts = true -> in_dir opts = Some base -> sound f -> any_order (listing L) -> some_order (sets L) ->
  ~ inside dst base -> ~ inside base dst ->
  (forall m, In m (names f base) -> f @@ (m :: base) = Some Dir) ->
  (forall m rel e, In m (names f base) -> belongs m rel e -> fits e (f @@ (rel ++ dst)) /\ rel <> ["paddle_utils.py"%string]) ->
  (forall m k rel s, belongs m rel (File s) -> ~ belongs k rel Dir) ->
  command L cwd package opts (FileTree.MkWorld f []) = (w, Ok r) -> map fst r = before ++ n :: after ->
  (forall m rel s, In m before -> belongs m rel (File s) -> exists text, carried_over L' (render (rel ++ m :: base)) s text) ->
  exists g w1 c earlier later,
    command L cwd package (MkOptions (Some (n :: base)) (out_dir opts) (exclude opts) (mode_is_min opts) (no_format_flag opts) (only_complete_flag opts) false false)
      (FileTree.MkWorld g []) = (w1, Ok [(""%string, c)]) /\
    r = earlier ++ (n, c) :: later /\ map fst earlier = before /\
    forall q, inside q base -> g @@ q = f @@ q.
Proof.
  intros L cwd package opts base f w r before n after L' dst bel Sep In_ Sd An Or A1 A2 Dn Ft Nc H Nm Co.
  unfold command in H. cbv zeta in H. rewrite Sep, In_ in H. unfold see in H. destruct (isdir _ _); [|discriminate].
  fold L' in H. change (listing L') with (listing L) in H. cbn [disk] in H.
  assert (P : Permutation (listing L f base (names f base)) (names f base)) by apply An.
  assert (Q : listing L f base (names f base) = before ++ n :: after) by (rewrite <- Nm; symmetry; exact (projects_names _ _ _ _ _ _ _ _ _ H)).
  rewrite Q in H, P. assert (Pin : forall m, In m (before ++ n :: after) -> In m (names f base)) by (intros m; apply Permutation_in, P).
  destruct (alone_all L' cwd opts base f An Or A1 A2 Nc before n after new_process _ _ _ H) as (g & w1 & c & r1 & r2 & R & E & N1 & _ & G).
  - split; reflexivity.
  - left; reflexivity.
  - exact Sd.
  - reflexivity.
  - intros m I. apply Dn, Pin, I.
  - intros m rel e I B. exact (proj1 (Ft m rel e (Pin m I) B)).
  - intros m e I B. exact (proj2 (Ft m _ e (Pin m I) B) eq_refl).
  - exact Co.
  - exists g, w1, c, r1, r2. split; [|split; [exact E|split; [exact N1|exact G]]].
    unfold command. cbv zeta. cbn [separate_convert run_check in_dir out_dir exclude]. unfold bind. unfold L' in R.
    assert (K : configured L (MkOptions (Some (n :: base)) (out_dir opts) (exclude opts) (mode_is_min opts) (no_format_flag opts) (only_complete_flag opts) false false) = configured L opts) by reflexivity.
    rewrite K. rewrite R. reflexivity.
Qed.
Print Assumptions C126_as_if_alone.

(** Project "one" has the file of C125, "two" imports torch. *)
Definition mixed_libraries : libraries :=
  let C := PropertiesCopy.copy_libraries in
  MkLibraries (matchers C) false true (fun l => l) 100
    (fun s => if String.eqb s PropertiesCopy.copy_code then Ok (module ex42) else Ok (module [Import [MkAlias "torch" None]]))
    (fun n => match n with Other _ [Many _ [_]] => Ok "import paddle"%string | _ => Ok PropertiesCopy.copy_code end)
    (fun _ => None) (fun _ => None) (fun _ => 0%Z) 5 (fun _ _ l => l) contains.
Definition mixed_files : fs :=
  [([], Dir); (["all"], Dir); (["one"; "all"], Dir); (["a.py"; "one"; "all"], File PropertiesCopy.copy_code);
   (["two"; "all"], Dir); (["b.py"; "two"; "all"], File "import torch")]%string.
Lemma mixed_reached n rel e : reached (is_excluded contains None) mixed_files (n :: ["all"%string]) rel e ->
  (rel = [] /\ e = Dir) \/ (n = "one" /\ rel = ["a.py"] /\ e = File PropertiesCopy.copy_code)%string \/ (n = "two" /\ rel = ["b.py"] /\ e = File "import torch")%string.
Proof.
  intros H. induction H as [e H|rel x e H IH S A E].
  - left. split; [reflexivity|]. cbn [app at_path] in H. apply PropertiesProjects.found_in in H.
    repeat (destruct H as [H|H]; [try discriminate H; injection H as <- <-; reflexivity|]). destruct H.
  - destruct IH as [[-> _]|[(_ & _ & X)|(_ & _ & X)]]; [|discriminate X|discriminate X]. right. cbn [app at_path] in A. apply PropertiesProjects.found_in in A.
    repeat (destruct A as [A|A]; [try discriminate A; injection A as <- <- <-; auto|]). destruct A.
Qed.
Example C126_nonvacuous : exists w r,
  let f := mixed_files in let opts := PropertiesProjects.ex_separate in let L := mixed_libraries in
  let belongs n := reached (is_excluded (found L) (exclude opts)) f (n :: ["all"%string]) in
  sound f /\ any_order (listing L) /\ some_order (sets L) /\
  (forall m, In m (names f ["all"%string]) -> f @@ [m; "all"%string] = Some Dir) /\
  (forall m rel e, In m (names f ["all"%string]) -> belongs m rel e -> fits e (f @@ (rel ++ ["out"%string])) /\ rel <> ["paddle_utils.py"%string]) /\
  (forall m k rel s, belongs m rel (File s) -> ~ belongs k rel Dir) /\
  command L [] [] opts (FileTree.MkWorld f []) = (w, Ok r) /\ map fst r = ["one"%string] ++ ["two"%string] /\
  forall m rel s, In m ["one"%string] -> belongs m rel (File s) -> exists text, carried_over (configured L opts) (render (rel ++ [m; "all"%string])) s text.
Proof.
  do 2 eexists. cbn zeta. split; [|split; [|split; [|split; [|split; [|split; [|split; [|split]]]]]]].
  - unfold sound. cbn. repeat (constructor; [intros J; cbn in J; intuition discriminate|]). constructor.
  - intros f p l. apply Permutation_refl.
  - intros l x. reflexivity.
  - intros m [<-|[<-|[]]]; reflexivity.
  - intros m rel e I B. apply mixed_reached in B as [[-> ->]|[(_ & -> & ->)|(_ & -> & ->)]]; (split; [exact Logic.I|discriminate]).
  - intros m k rel s B B'. apply mixed_reached in B as [[_ X]|[(_ & -> & _)|(_ & -> & _)]]; [discriminate X| |];
      apply mixed_reached in B' as [[X _]|[(_ & _ & X)|(_ & _ & X)]]; discriminate X.
  - vm_compute. reflexivity.
  - reflexivity.
  - intros m rel s [<-|[]] B. apply mixed_reached in B as [[_ X]|[(_ & -> & [= ->])|(X & _)]]; [discriminate X| |discriminate X].
    eexists. apply PropertiesCopy.copy_python; try reflexivity. cbn. repeat constructor.
Qed.

(** Otherwise an earlier project changes a later one.  Project "one" builds the extension
    "ext" and has a PyLayer class F that uses it; "two" has nothing to do with it, but an
    "import ext" of its own is taken away, and "from mine import F" becomes "import ext". *)
Definition class_tree (base : node) : node :=
  Other "Module" [Many "body" [
    Import [MkAlias "torch" None]; Import [MkAlias "ext" None];
    Other "ClassDef" [Data "@id" "1"; Data "name" "F";
      Many "bases" [base];
      Many "body" [PropertiesDepend.statement (Call (Attribute (Name "ext") "run") [Name "x"] [])]]]].
Definition stranger_tree : node := Other "Module" [Many "body" [ImportFrom (Some "mine") [MkAlias "F" None] 0]].
Definition alone_print (n : node) : res string :=
  match n with
  | Other _ [Many _ []] => Ok "pass"%string
  | Other _ [Many _ (Import [a] :: Other "ClassDef" (_ :: Data _ c :: Many _ [Name b] :: _) :: _)] => Ok ("import " ++ al_name a ++ "; class " ++ c ++ "(" ++ b ++ "): ...")%string
  | Other _ [Many _ (Import [a] :: _)] => Ok ("import " ++ al_name a)%string
  | Other _ [Many _ (ImportFrom (Some m) [a] _ :: _)] => Ok ("from " ++ m ++ " import " ++ al_name a)%string
  | _ => Ok "..."%string
  end.
Definition alone_libraries : libraries :=
  MkLibraries (MkTools PropertiesDepend.shown (fun s => Ok [PropertiesDepend.statement (Name s)]) (fun _ => ""%string) [] false)
    false true (fun l => l) 100
    (fun s => Ok (if String.eqb s "build" then PropertiesDepend.build_tree else if String.eqb s "class" then class_tree (Attribute (Attribute (Name "paddle") "autograd") "PyLayer")
                  else if String.eqb s "torch class" then class_tree (Attribute (Attribute (Name "torch") "autograd") "Function")
                  else if String.eqb s "stranger" then stranger_tree else PropertiesDepend.use_tree)) alone_print
    (fun _ => None) (fun _ => None) (fun _ => 0%Z) 5 (fun _ _ l => l) contains.
Definition alone_files : fs :=
  [([], Dir); (["all"], Dir); (["one"; "all"], Dir); (["setup.py"; "one"; "all"], File "build"); (["ops.py"; "one"; "all"], File "class");
   (["two"; "all"], Dir); (["use.py"; "two"; "all"], File "use"); (["main.py"; "two"; "all"], File "stranger")]%string.
Definition alone_options : options := MkOptions (Some ["two"; "all"]%string) (Some ["out"%string]) None false true false false false.
Theorem C126_extensions_of_others_refuted : exists w r w' r',
  command alone_libraries [] [] PropertiesProjects.ex_separate (FileTree.MkWorld alone_files []) = (w, Ok r) /\ map fst r = ["one"; "two"]%string /\
  command alone_libraries [] [] alone_options (FileTree.MkWorld alone_files []) = (w', Ok r') /\
  disk w @@ ["use.py"; "out"]%string = Some (File "pass") /\ disk w' @@ ["use.py"; "out"]%string = Some (File "import ext").
Proof. do 4 eexists. split; [vm_compute; reflexivity|]. split; [reflexivity|]. split; [vm_compute; reflexivity|]. split; vm_compute; reflexivity. Qed.
Print Assumptions C126_extensions_of_others_refuted.
Theorem C126_classes_of_others_refuted : exists w r w' r',
  command alone_libraries [] [] PropertiesProjects.ex_separate (FileTree.MkWorld alone_files []) = (w, Ok r) /\ map fst r = ["one"; "two"]%string /\
  command alone_libraries [] [] alone_options (FileTree.MkWorld alone_files []) = (w', Ok r') /\
  disk w @@ ["main.py"; "out"]%string = Some (File "import ext") /\ disk w' @@ ["main.py"; "out"]%string = Some (File "from mine import F").
Proof. do 4 eexists. split; [vm_compute; reflexivity|]. split; [reflexivity|]. split; [vm_compute; reflexivity|]. split; vm_compute; reflexivity. Qed.
Print Assumptions C126_classes_of_others_refuted.

(** ** C84 on the shipped tables *)
(** A project that builds the extension "ext" and wraps it in a torch.autograd.Function: the
    base class becomes paddle.autograd.Function, which is not the base the pass looks for
    (paddle.autograd.PyLayer), so the wrapper stays; with PyLayer in the source it goes. *)
Definition wrapper_files (code : string) : fs :=
  [([], Dir); (["in"], Dir); (["setup.py"; "in"], File "build"); (["ops.py"; "in"], File code)]%string.
Theorem C84_torch_function_refuted : exists w c w' c',
  Program.program alone_libraries [] ["in"%string] (Some ["out"%string]) None (FileTree.MkWorld (wrapper_files "torch class") []) = (w, Ok c) /\
  disk w @@ ["ops.py"; "out"]%string = Some (File "import paddle; class F(paddle.autograd.Function): ...") /\ c_autograd c = [] /\
  Program.program alone_libraries [] ["in"%string] (Some ["out"%string]) None (FileTree.MkWorld (wrapper_files "class") []) = (w', Ok c') /\
  disk w' @@ ["ops.py"; "out"]%string = Some (File "import paddle") /\ c_autograd c' = [("1", ("F", "ext"))]%string.
Proof.
  do 4 eexists. split; [vm_compute; reflexivity|]. split; [vm_compute; reflexivity|]. split; [vm_compute; reflexivity|].
  split; [vm_compute; reflexivity|]. split; vm_compute; reflexivity.
Qed.
Print Assumptions C84_torch_function_refuted.
