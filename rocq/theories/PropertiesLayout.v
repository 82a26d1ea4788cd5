(** What of a source file reaches the output: its syntax tree, not its layout (C138). *)
From Coq Require Import List.
From Verif Require Import PyStr PyStrFacts PyDict Ast Requirements TextFile TextSpec TextFacts UtilsFile BasicPass Converter Shipped Program Main
  LayoutSpec LayoutFacts PropertiesText.
From Verif Require PropertiesFiles PropertiesProgram.
From Verif Require Import FileTree FileTreeSpec FileTreeFacts FileTreeMirror.
Open Scope list_scope.
Opaque TablesData.api_mapping TablesData.attribute_mapping TablesData.alias_mapping TablesData.wildcard_mapping TablesData.matcher_classes
  TablesData.torch_package_mapping.

(** ** C138 *)
(** Two conversions with the same arguments, on two disks with the same files.  The contents
    may differ: any way in files that belong neither to the input nor to the output directory,
    and in the input by other comments, layout and line ends.  Both conversions come out the
    same: the same counts and lists, or the same exception, and the same output directory. *)
Theorem C138_only_the_source_matters : forall L cwd package o src f f' w w' r r',
  let dst := destination cwd (out_dir o) in
  run_check o = false -> in_dir o = Some src -> sound f -> by_names (listing L) ->
  indifferent (parse_file L) src dst f f' ->
  command L cwd package o (FileTree.MkWorld f []) = (w, r) ->
  command L cwd package o (FileTree.MkWorld f' []) = (w', r') ->
  r = r' /\ forall p, inside p dst -> disk w @@ p = disk w' @@ p.
Proof.
  intros L cwd package o src f f' w w' r r' dst R D S B I H H'.
  assert (G : steps (noticed_nowhere (configured L o) src dst) (command L cwd package o) (command L cwd package o)).
  { unfold command. rewrite R, D. destruct (separate_convert o).
    - apply steps_see. intros g g' T. rewrite (twin_isdir _ g g' _ T), (twin_exists _ g g' _ T), (twin_names _ g g' _ T).
      change (listing (configured L o)) with (listing L). rewrite (B g g' _ _ (twin_keys _ _ _ T)).
      destruct (isdir g' src); [|apply steps_fail]. apply steps_each; [exact B|reflexivity|discriminate].
    - apply steps_bind; [|intros c; apply steps_ret]. apply steps_program; [exact B|apply inside_refl|reflexivity|discriminate]. }
  apply (indifferent_twin (configured L o)) in I; [|exact S].
  destruct (G (FileTree.MkWorld f []) (FileTree.MkWorld f' []) I) as [T E]. rewrite H, H' in T, E. cbn [fst snd] in T, E.
  split; [exact E|]. intros p J. destruct (at_twin _ _ _ p T) as [K|(s & s' & _ & _ & N & _)]; [exact K|destruct (N J)].
Qed.
Print Assumptions C138_only_the_source_matters.

(** Line ends are layout. *)
Theorem C138_line_ends_are_layout : forall parse file bytes bytes' text,
  endswith file ".py" = true \/ endswith file "requirements.txt" = true ->
  reads_text bytes text -> reads_text bytes' text -> same_source parse file bytes bytes'.
Proof.
  intros parse file b b' t F R R'. exists t, t. split; [exact R|]. split; [exact R'|].
  destruct (endswith file ".py"); [left; auto|right]. destruct F as [F|F]; [discriminate|auto].
Qed.
Print Assumptions C138_line_ends_are_layout.

(** Carriage returns do not reach a converted requirements.txt, nor the text that is parsed. *)
Definition has_return (s : string) : Prop := exists a b, s = (a ++ String "013" b)%string.
Lemma return_spec s : has_return s <-> contains (String "013" "") s = true.
Proof. rewrite contains_spec. unfold has_return. split; intros (a & b & E); exists a, b; exact E. Qed.
Lemma has_return_cons c s : has_return (String c s) <-> c = "013"%char \/ has_return s.
Proof.
  split.
  - intros (a & b & E). destruct a as [|x a]; injection E as -> E; [left; reflexivity|right]. exists a, b. exact E.
  - intros [->|(a & b & ->)]; [exists EmptyString, s; reflexivity|]. exists (String c a), b. reflexivity.
Qed.
Lemma has_return_app s t : has_return (s ++ t)%string -> has_return s \/ has_return t.
Proof.
  induction s as [|c s IH]; [auto|]. cbn [append]. rewrite !has_return_cons. intros [->|H]; [auto|]. destruct (IH H); auto.
Qed.
Lemma lines_no_return s t : lines_of s t -> ~ has_return t.
Proof.
  induction 1 as [|s t _ IH|s t _ _ IH|a s t N _ IH]; rewrite ?has_return_cons.
  - intros ([|] & b & E); discriminate E.
  - intros [E|H]; [discriminate E|contradiction].
  - intros [E|H]; [discriminate E|contradiction].
  - intros [E|H]; [congruence|contradiction].
Qed.
Theorem C138_read_without_returns : forall bytes text, reads_text bytes text -> ~ has_return text.
Proof. intros b t [_ H]. exact (lines_no_return _ _ H). Qed.
Print Assumptions C138_read_without_returns.
Lemma replaced_no_return s t : Replaced "torch" "paddlepaddle-gpu" s t -> ~ has_return s -> ~ has_return t.
Proof.
  induction 1 as [s _|a b t _ _ IH]; [auto|]. intros N H. apply has_return_app in H as [H|H].
  - apply N. destruct H as (x & y & ->). exists x, (y ++ "torch" ++ b)%string. rewrite app_assoc_s. reflexivity.
  - apply has_return_app in H as [H|H]; [apply return_spec in H; vm_compute in H; discriminate H|]. revert H. apply IH.
    intros (x & y & ->). apply N. exists (a ++ "torch" ++ x)%string, y. rewrite !app_assoc_s. reflexivity.
Qed.

(** What becomes of a requirements.txt, for every project directory: the replacement of "torch"
    in its text, without carriage returns. *)
Theorem C138_requirements : forall L cwd src out exclude f w c' rel bytes,
  let dst := destination cwd out in
  let takes_part := reached (is_excluded (found L) exclude) f src in
  sound f -> any_order (listing L) -> f @@ src = Some Dir -> ~ inside dst src -> ~ inside src dst ->
  (forall rel e, takes_part rel e -> fits e (f @@ (rel ++ dst))) ->
  program L cwd src out exclude (FileTree.MkWorld f []) = (w, Ok c') ->
  takes_part rel (File bytes) -> endswith (render (rel ++ src)) ".py" = false -> endswith (render (rel ++ src)) "requirements.txt" = true ->
  rel <> ["paddle_utils.py"%string] ->
  exists code text, reads_text bytes code /\ Replaced "torch" "paddlepaddle-gpu" code text /\ ~ has_return text /\
    disk w @@ (rel ++ dst) = Some (File text).
Proof.
  intros L cwd src out exclude f w c' rel b dst tp Sd An Ds A B Ft H Tp P Rq N. unfold program in H.
  destruct (PropertiesFiles.C44_output_mirrors_input _ _ _ _ _ _ _ cwd src out exclude _ c' f w Sd An Ds A B Ft H) as ((l & K & _ & I & F) & _).
  destruct (proj2 (I rel b) Tp) as [text J]. specialize (F _ _ _ J (or_intror N)). fold dst in F.
  assert (E : exists code, reads_text b code /\ text = convert_requirements code).
  { clear -K J P Rq. induction K as [|ex rel0 s0 text0 c1 c2 l c3 Lk E _ IH]; [destruct J|]. destruct J as [[= -> -> ->]|J]; [|apply IH, J].
    unfold convert_text in E. rewrite P, Rq in E. destruct (read_text b) as [code|] eqn:R; [|discriminate]. injection E as <- _.
    exists code. split; [apply read_text_spec, R|reflexivity]. }
  destruct E as (code & R & ->). exists code, (convert_requirements code). split; [exact R|]. split; [apply C06_requirements_is_replacement|].
  split; [|exact F]. eapply replaced_no_return; [apply C06_requirements_is_replacement|]. eapply C138_read_without_returns, R.
Qed.
Print Assumptions C138_requirements.

(** Only UTF-8 is read: a directory with another Python file or requirements.txt that takes
    part is not converted to the end. *)
Theorem C138_only_utf8 : forall L cwd src out exclude f w c' rel bytes,
  let dst := destination cwd out in
  let takes_part := reached (is_excluded (found L) exclude) f src in
  sound f -> any_order (listing L) -> f @@ src = Some Dir -> ~ inside dst src -> ~ inside src dst ->
  (forall rel e, takes_part rel e -> fits e (f @@ (rel ++ dst))) ->
  program L cwd src out exclude (FileTree.MkWorld f []) = (w, Ok c') ->
  takes_part rel (File bytes) -> endswith (render (rel ++ src)) ".py" = true \/ endswith (render (rel ++ src)) "requirements.txt" = true ->
  encoded bytes.
Proof.
  intros L cwd src out exclude f w c' rel b dst tp Sd An Ds A B Ft H Tp P. unfold program in H.
  destruct (PropertiesFiles.C44_output_mirrors_input _ _ _ _ _ _ _ cwd src out exclude _ c' f w Sd An Ds A B Ft H) as ((l & K & _ & I & _) & _).
  destruct (proj2 (I rel b) Tp) as [text J]. clear -K J P.
  induction K as [|ex rel0 s0 text0 c1 c2 l c3 Lk E _ IH]; [destruct J|]. destruct J as [[= -> -> ->]|J]; [|apply IH, J].
  unfold convert_text in E. unfold read_text in E. destruct (utf8 b) eqn:U; [apply utf8_encoded, U|]. exfalso.
  destruct (endswith (render (rel ++ src)) ".py"); [discriminate E|]. destruct P as [P|P]; [discriminate P|]. rewrite P in E. discriminate E.
Qed.
Print Assumptions C138_only_utf8.

(** Comments, layout and line ends are not kept. *)
Definition crlf : string := String "013" (String "010" "").
Definition layout_libraries : libraries :=
  let L := PropertiesProgram.ex_libraries in
  MkLibraries (matchers L) false true (fun l => l) 100
    (fun s => if startswith s "x = 1" then Ok (Other "Module" [Many "body" [Name "x = 1"]]) else Raise "SyntaxError")
    (fun n => match n with Other _ [Many _ [Name s]] => Ok (s ++ nls)%string | _ => Raise "?" end)
    (fun _ => None) (fun _ => None) (hash L) 5 (fun _ _ l => l) PropertiesFiles.literal.
Definition disk_with (python requirements : string) : fs :=
  [([], Dir); (["in"], Dir); (["a.py"; "in"], File python); (["requirements.txt"; "in"], File requirements)]%string.
Theorem C138_layout_refuted : exists w c',
  program layout_libraries [] ["in"%string] (Some ["out"%string]) None
    (FileTree.MkWorld (disk_with ("x = 1  # keep" ++ crlf) ("numpy" ++ crlf)) []) = (w, Ok c') /\
  disk w @@ ["a.py"; "out"]%string = Some (File ("x = 1" ++ nls)) /\
  disk w @@ ["requirements.txt"; "out"]%string = Some (File ("numpy" ++ nls)).
Proof. do 2 eexists. split; [vm_compute; reflexivity|split; vm_compute; reflexivity]. Qed.
Print Assumptions C138_layout_refuted.

(** Two such disks; a file that is not UTF-8. *)
Example C138_nonvacuous :
  let f := disk_with ("x = 1  # keep" ++ crlf) ("torch" ++ crlf) in let f' := disk_with "x = 1" ("torch" ++ nls) in
  let o := MkOptions (Some ["in"%string]) (Some ["out"%string]) None false true false false false in
  sound f /\ by_names (listing layout_libraries) /\ indifferent (parse_file layout_libraries) ["in"%string] ["out"%string] f f' /\
  (exists w c, command layout_libraries [] [] o (FileTree.MkWorld f []) = (w, Ok [(""%string, c)]) /\
     disk w @@ ["requirements.txt"; "out"]%string = Some (File ("paddlepaddle-gpu" ++ nls))) /\
  reads_text ("torch" ++ crlf)%string ("torch" ++ nls)%string /\
  encoded (String "195" (String "169" "")) /\ ~ encoded (String "233" "") /\
  snd (command layout_libraries [] [] o (FileTree.MkWorld (disk_with (String "233" "") "") [])) = Raise "UnicodeDecodeError"%string.
Proof.
  cbv zeta. split; [|split; [|split; [|split; [|split; [|split; [|split]]]]]].
  - unfold sound. cbn. repeat (constructor; [intros J; cbn in J; intuition discriminate|]). constructor.
  - intros f f' p l _. reflexivity.
  - split; [reflexivity|]. intros p.
    destruct p as [|n p]; [left; reflexivity|]. cbn [at_path].
    destruct (path_eqb_spec (n :: p) ["a.py"; "in"]%string) as [->|N].
    + right. do 2 eexists. split; [reflexivity|]. split; [reflexivity|]. split; [intros ([|? [|? [|]]] & E); discriminate E|].
      intros _. do 2 eexists. split; [apply read_text_spec; vm_compute; reflexivity|]. split; [apply read_text_spec; vm_compute; reflexivity|].
      left. split; reflexivity.
    + destruct (path_eqb_spec (n :: p) ["requirements.txt"; "in"]%string) as [->|M].
      * right. do 2 eexists. split; [reflexivity|]. split; [reflexivity|]. split; [intros ([|? [|? [|]]] & E); discriminate E|].
        intros _. apply (C138_line_ends_are_layout _ _ _ _ ("torch" ++ nls)); [right; reflexivity| |]; apply read_text_spec; vm_compute; reflexivity.
      * left. unfold disk_with. cbn [dget]. destruct (path_eqb_spec (n :: p) ["a.py"; "in"]%string); [contradiction|].
        destruct (path_eqb_spec (n :: p) ["requirements.txt"; "in"]%string); [contradiction|]. reflexivity.
  - do 2 eexists. split; vm_compute; reflexivity.
  - apply read_text_spec. vm_compute. reflexivity.
  - apply utf8_encoded. vm_compute. reflexivity.
  - intros E. apply utf8_encoded in E. vm_compute in E. discriminate E.
  - vm_compute. reflexivity.
Qed.
