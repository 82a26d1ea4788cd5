(** Several projects in one command (C124). *)
From Coq Require Import Permutation.
From Verif Require Import PyStr PyDict TablesData Ast UtilsFile BasicPass Converter Shipped Program Main MainFacts MainProjects.
From Verif Require FileTree FileTreeSpec FileTreeFacts FileTreeMirror PropertiesProgram.
Import FileTree FileTreeSpec FileTreeFacts FileTreeMirror.
Open Scope list_scope.

(** ** C124 *)
(** [--separate_convert] with directories as projects, the output apart from the input, nothing
    in the way of the output, no project with a file where another one has a directory, none
    with its own paddle_utils.py: the projects are converted one after the other in the order
    of the result; a file of the output is the converted file of the last project that has
    one there; the directories of all projects are there; no other path changes. *)
Theorem C124_the_last_project_wins : forall L cwd package o base f w r,
  let dst := destination cwd (out_dir o) in
  let belongs n := reached (is_excluded (found L) (exclude o)) f (n :: base) in
  separate_convert o = true -> in_dir o = Some base -> sound f -> any_order (listing L) ->
  ~ inside dst base -> ~ inside base dst ->
  (forall n, In n (names f base) -> f @@ (n :: base) = Some Dir) ->
  (forall n rel e, In n (names f base) -> belongs n rel e -> fits e (f @@ (rel ++ dst)) /\ rel <> ["paddle_utils.py"%string]) ->
  (forall n m rel s, belongs n rel (File s) -> ~ belongs m rel Dir) ->
  command L cwd package o (FileTree.MkWorld f []) = (w, Ok r) ->
  Permutation (map fst r) (names f base) /\
  (forall before n after rel s, map fst r = before ++ n :: after -> belongs n rel (File s) ->
     (forall m s', In m after -> ~ belongs m rel (File s')) ->
     exists ex text c c', looks_at f (fun p => inside p (n :: base)) ex /\ convert_text (converter_setup (configured L o)) ex (render (rel ++ n :: base)) s c = Ok (text, c') /\
       disk w @@ (rel ++ dst) = Some (File text)) /\
  (forall n rel, In n (map fst r) -> belongs n rel Dir -> rel <> [] -> disk w @@ (rel ++ dst) = Some Dir) /\
  (forall q, disk w @@ q <> f @@ q ->
     (exists n rel e, In n (map fst r) /\ belongs n rel e /\ q = rel ++ dst) \/
     (f @@ q = None /\ disk w @@ q = Some Dir /\ inside dst q) \/ q = "paddle_utils.py"%string :: dst).
Proof.
  intros L cwd package o base f w r dst belongs Sep In_ Sd An A1 A2 Dn Ft Nc H. unfold command in H. cbv zeta in H. rewrite Sep, In_ in H.
  unfold see in H. destruct (isdir _ _); [|discriminate]. set (M := configured L o) in *.
  change (listing M) with (listing L) in H. cbn [disk] in H. set (ps := listing L f base (names f base)) in *.
  assert (P : Permutation ps (names f base)) by apply An.
  assert (Pin : forall n, In n ps -> In n (names f base)) by (intros n; apply Permutation_in, P).
  destruct (projects_disk M cwd o base f An A1 A2 Nc ps _ _ _ _ H (or_introl eq_refl) Sd (fun q _ => eq_refl)
    (fun n I => Dn n (Pin n I)) (fun n rel e I B => proj1 (Ft n rel e (Pin n I) B)) (fun n e I B => proj2 (Ft n _ e (Pin n I) B) eq_refl)) as (Nm & Fi & Di & Ch).
  rewrite Nm. split; [exact P|]. split; [exact Fi|]. split; [exact Di|].
  intros q Nq. destruct (Ch q) as [E|[(n & rel & e & I & B & _ & E & _)|[E|E]]]; [contradiction| |auto|auto]. left. exists n, rel, e. auto.
Qed.
Print Assumptions C124_the_last_project_wins.

(** So the file of an earlier project is lost if a later one has a file of the same name. *)
Definition ex_convert (src : string) : node :=
  Other "Module" [Many "body" [PropertiesProgram.statement (Name src)]].
Definition ex_echo : libraries :=
  MkLibraries PropertiesProgram.ex_tools false true (fun l => l) 100 (fun s => Ok (ex_convert s))
    (fun n => match n with Other _ [Many _ [Other _ [One _ (Name s)]]] => Ok s | _ => Ok "?"%string end) (fun _ => None) (fun _ => None)
    PropertiesProgram.number 5 (fun _ _ l => l) contains.
Definition ex_two : fs :=
  [([], Dir); (["all"], Dir); (["one"; "all"], Dir); (["main.py"; "one"; "all"], File "first"); (["only.py"; "one"; "all"], File "kept");
   (["two"; "all"], Dir); (["main.py"; "two"; "all"], File "second")]%string.
Definition ex_separate : options := MkOptions (Some ["all"%string]) (Some ["out"%string]) None false true false false true.
Lemma found_in (d : fs) p e : dget path_eqb p d = Some e -> In (p, e) d.
Proof.
  induction d as [|[q x] d IH]; cbn [dget]; [discriminate|]. destruct (path_eqb_spec p q) as [->|N]; [intros [= ->]; left; reflexivity|].
  intros H. right. exact (IH H).
Qed.
Theorem C124_same_names_refuted : exists w r,
  command ex_echo [] [] ex_separate (FileTree.MkWorld ex_two []) = (w, Ok r) /\ map fst r = ["one"; "two"]%string /\
  disk w @@ ["main.py"; "out"]%string = Some (File "second") /\ disk w @@ ["only.py"; "out"]%string = Some (File "kept") /\
  forall p, disk w @@ p = Some (File "first") -> p = ["main.py"; "one"; "all"]%string.
Proof.
  do 2 eexists. split; [vm_compute; reflexivity|]. split; [reflexivity|]. split; [reflexivity|]. split; [reflexivity|].
  intros p H. destruct p as [|n p]; [discriminate H|]. cbn [disk at_path] in H. apply found_in in H.
  repeat (destruct H as [H|H]; [try discriminate H; injection H as <- <-; reflexivity|]). destruct H.
Qed.
Print Assumptions C124_same_names_refuted.

(** And if the first entry is a file, the helper code of a later project goes into the copy of
    that file; the project has no paddle_utils.py.  If the output did not exist before, the
    copy is removed and the command fails. *)
Definition ex_mixed : fs :=
  [([], Dir); (["all"], Dir); (["a.txt"; "all"], File "notes"); (["two"; "all"], Dir); (["main.py"; "two"; "all"], File "import torch")]%string.
Theorem C124_helpers_in_a_stranger_refuted : exists w r text,
  command PropertiesProgram.ex_libraries [] [] ex_separate (FileTree.MkWorld ((["out"%string], Dir) :: ex_mixed) []) = (w, Ok r) /\ map fst r = ["a.txt"; "two"]%string /\
  disk w @@ ["main.py"; "out"]%string = Some (File "converted") /\ disk w @@ ["paddle_utils.py"; "out"]%string = None /\
  disk w @@ ["a.txt"; "out"]%string = Some (File text) /\ contains "# helpers of CanCastMatcher" text = true.
Proof. do 3 eexists. split; [vm_compute; reflexivity|]. repeat split; vm_compute; reflexivity. Qed.
Print Assumptions C124_helpers_in_a_stranger_refuted.
Theorem C124_first_file_refuted : exists w e,
  command PropertiesProgram.ex_libraries [] [] ex_separate (FileTree.MkWorld ex_mixed []) = (w, Raise e) /\
  disk w @@ ["out"%string] = Some Dir /\ forall p, disk w @@ p = Some (File "notes") -> p = ["a.txt"; "all"]%string.
Proof.
  do 2 eexists. split; [vm_compute; reflexivity|]. split; [reflexivity|].
  intros p H. destruct p as [|n p]; [discriminate H|]. cbn [disk at_path] in H. apply found_in in H.
  repeat (destruct H as [H|H]; [try discriminate H; injection H as <- <-; reflexivity|]). destruct H.
Qed.
Print Assumptions C124_first_file_refuted.

(** The two projects above satisfy the hypotheses of the theorem. *)
Lemma ex_belongs n rel e : In n ["one"; "two"]%string -> reached (is_excluded (found ex_echo) (exclude ex_separate)) ex_two (n :: ["all"%string]) rel e ->
  (rel = [] /\ e = Dir) \/ exists s x, e = File s /\ rel = [x] /\ x <> "paddle_utils.py"%string.
Proof.
  intros I H. induction H as [e H|rel x e H IH S A E].
  - left. split; [reflexivity|]. destruct I as [<-|[<-|[]]]; injection H as <-; reflexivity.
  - right. destruct IH as [[-> _]|(s & y & X & _)]; [|discriminate X]. cbn [app at_path] in A. apply found_in in A.
    destruct I as [<-|[<-|[]]]; repeat (destruct A as [A|A]; [try discriminate A; injection A as <- <-; do 2 eexists; (split; [reflexivity|split; [reflexivity|discriminate]])|]); destruct A.
Qed.
Lemma ex_listed n rel e : reached (is_excluded (found ex_echo) (exclude ex_separate)) ex_two (n :: ["all"%string]) rel e -> In n ["one"; "two"]%string.
Proof.
  intros H. induction H as [e H|rel x e H IH S A E]; [|exact IH]. cbn [at_path] in H. apply found_in in H.
  repeat (destruct H as [H|H]; [try discriminate H; injection H as <- <-; cbn; tauto|]). destruct H.
Qed.
Example C124_nonvacuous :
  let belongs n := reached (is_excluded (found ex_echo) (exclude ex_separate)) ex_two (n :: ["all"%string]) in
  sound ex_two /\ any_order (listing ex_echo) /\ ~ inside ["out"%string] ["all"%string] /\ ~ inside ["all"%string] ["out"%string] /\
  names ex_two ["all"%string] = ["one"; "two"]%string /\
  (forall n, In n (names ex_two ["all"%string]) -> ex_two @@ (n :: ["all"%string]) = Some Dir) /\
  (forall n rel e, In n (names ex_two ["all"%string]) -> belongs n rel e -> fits e (ex_two @@ (rel ++ ["out"%string])) /\ rel <> ["paddle_utils.py"%string]) /\
  (forall n m rel s, belongs n rel (File s) -> ~ belongs m rel Dir) /\
  belongs "one"%string ["main.py"%string] (File "first") /\ belongs "two"%string ["main.py"%string] (File "second").
Proof.
  cbv zeta. split; [repeat constructor; cbn; intuition discriminate|]. split; [intros g p l; reflexivity|].
  split; [intros [[|? [|? ?]] E]; discriminate E|]. split; [intros [[|? [|? ?]] E]; discriminate E|]. split; [reflexivity|].
  split; [intros n [<-|[<-|[]]]; reflexivity|]. split.
  - intros n rel e I B. destruct (ex_belongs n rel e I B) as [[-> ->]|(s & x & -> & -> & N)].
    + split; [exact Logic.I|discriminate].
    + split; [|congruence]. destruct (ex_two @@ ([x] ++ ["out"%string])) eqn:Q; [|exact Logic.I]. exfalso. cbn [app at_path] in Q. apply found_in in Q.
      repeat (destruct Q as [Q|Q]; [discriminate Q|]). destruct Q.
  - split.
    { intros n m rel s B B'. pose proof (ex_listed _ _ _ B) as I. pose proof (ex_listed _ _ _ B') as I'.
      destruct (ex_belongs _ _ _ I B) as [[_ X]|(s1 & x & _ & -> & _)]; [discriminate X|].
      destruct (ex_belongs _ _ _ I' B') as [[X _]|(s2 & y & X & _)]; discriminate X. }
    split; (apply reached_in; [constructor; reflexivity|reflexivity|reflexivity|reflexivity]).
Qed.
