(** Conversions that stop because a file cannot be converted (C121). *)
From Coq Require Import Permutation Lia.
From Verif Require Import PyStr PyDict PyStrFacts PyDictFacts TablesData Ast UtilsFile BasicPass Converter Shipped Program
  FileTree FileTreeSpec FileTreeFacts FileTreeMirror FileTreeRun FileTreeLoop FileTreeTotal FileTreeStop.
From Verif Require PropertiesFiles PropertiesProgram.
Open Scope list_scope.

(** Writing the helper code does not fail after a conversion that did not. *)
Lemma flush_after C (convert : (string -> bool) -> string -> string -> C -> res (string * C)) codes_of search isort pats f src dst c w2 c2 :
  (forall p, inside dst p -> f @@ p = None \/ f @@ p = Some Dir) ->
  (forall e, f @@ ("paddle_utils.py"%string :: dst) = Some e -> exists s, e = File s) ->
  ~ reached (excluded search pats) f src ["paddle_utils.py"%string] Dir ->
  post convert search pats f src dst (fun _ => True) (MkWorld f []) w2 c c2 ->
  exists w3, flush codes_of isort ("paddle_utils.py"%string :: dst) true c2 w2 = (w3, Ok tt).
Proof.
  intros Fw Pu Pd P. unfold flush. destruct (codes_of c2) as [|x l] eqn:E; [eexists; reflexivity|]. rewrite <- E.
  cbn [dirname tl].
  assert (F2 : free_way dst w2) by (eapply free_way_kept; [exact (p_changes _ _ _ _ _ _ _ _ _ _ _ P)|exact Fw]).
  assert (M : exists w3, makedirs_ok dst w2 = (w3, Ok tt) /\ disk w3 @@ dst = Some Dir /\ grows dst w2 w3).
  { unfold makedirs_ok, see. destruct (F2 dst (inside_refl _)) as [X|X].
    - unfold isdir. rewrite X. destruct (makedirs_total dst w2 F2 X) as [w3 M]. exists w3. split; [exact M|].
      apply makedirs_spec in M. split; apply M.
    - unfold isdir. rewrite X. exists w2. split; [reflexivity|]. split; [exact X|apply grows_refl]. }
  destruct M as (w3 & M & D3 & G3). unfold bind at 1. rewrite M. unfold see at 1. unfold write_code, has_file. cbn [file_name code_map dir_mode].
  rewrite render_nonempty, E. cbn [negb]. unfold write_file, see. cbn [dirname tl]. unfold isdir. rewrite D3.
  assert (N3 : disk w3 @@ ("paddle_utils.py"%string :: dst) = None \/ exists s, disk w3 @@ ("paddle_utils.py"%string :: dst) = Some (File s)).
  { destruct (G3 ("paddle_utils.py"%string :: dst)) as [X|(_ & _ & [r X])].
    - rewrite X. destruct P as [(l' & _ & _ & I & F) _ Ch _].
      destruct (Ch ("paddle_utils.py"%string :: dst)) as [Y|[(r & e & G & _ & _ & Y & Z)|(_ & _ & [r Y])]].
      + rewrite Y. cbn [disk]. destruct (f @@ ("paddle_utils.py"%string :: dst)) as [e|] eqn:W; [right|left; reflexivity].
        destruct (Pu e eq_refl) as [s ->]. exists s. reflexivity.
      + change ("paddle_utils.py"%string :: dst) with (["paddle_utils.py"%string] ++ dst) in *. apply app_inv_tail in Y. subst r.
        destruct e as [s| | |]; [| |destruct Z|destruct Z].
        * right. destruct (proj2 (I _ s) (conj G Logic.I)) as [t J]. exists t. exact (F _ _ _ J).
        * destruct (Pd G).
      + exfalso. apply (f_equal (@List.length _)) in Y. rewrite app_length in Y. cbn in Y. lia.
    - exfalso. apply (f_equal (@List.length _)) in X. rewrite app_length in X. cbn in X. lia. }
  destruct N3 as [->|[s ->]]; eexists; reflexivity.
Qed.

(** ** C121 *)
(** A directory, the output apart from it, nothing in the way.  If the conversion raises an
    exception, it is the exception of converting one of the files that take part.  The files
    converted before it (the list [l]) are in the output with their whole new text; no other
    file is there that was not there before, none is changed, and none is removed; only
    directories were made. *)
Theorem C121_what_a_failed_conversion_leaves :
  forall (C : Type) (convert : (string -> bool) -> string -> string -> C -> res (string * C)) codes_of order search isort
    (fuel : nat) (cwd src dst : path) (exclude : option string) (c : C) (f : fs) (w : world) (x : string),
  let takes_part := reached (is_excluded search exclude) f src in
  sound f -> any_order order -> f @@ src = Some Dir -> ~ inside dst src -> ~ inside src dst ->
  (forall rel e, takes_part rel e -> fits e (f @@ (rel ++ dst))) ->
  (forall p, inside dst p -> f @@ p = None \/ f @@ p = Some Dir) ->
  (forall e, f @@ ("paddle_utils.py"%string :: dst) = Some e -> exists s, e = File s) ->
  ~ takes_part ["paddle_utils.py"%string] Dir ->
  (forall rel e, takes_part rel e -> (List.length rel < fuel)%nat) ->
  (forall rel, ~ takes_part rel Special) ->
  run convert codes_of order search isort fuel cwd None src (Some dst) exclude c (MkWorld f []) = (w, Raise x) ->
  exists l c1 rel s exists_path,
    conversions (looks_at f (fun p => inside p src)) convert src c l c1 /\ looks_at f (fun p => inside p src) exists_path /\
    takes_part rel (File s) /\ convert exists_path (render (rel ++ src)) s c1 = Raise x /\
    ~ In rel (map (fun y => fst (fst y)) l) /\ NoDup (map (fun y => fst (fst y)) l) /\
    (forall r s t, In (r, s, t) l -> takes_part r (File s) /\ disk w @@ (r ++ dst) = Some (File t)) /\
    forall p, (forall r s t, In (r, s, t) l -> p <> r ++ dst) ->
      disk w @@ p = f @@ p \/ (f @@ p = None /\ disk w @@ p = Some Dir).
Proof.
  intros C convert codes_of order search isort fuel cwd src dst exclude c f w x takes_part Sd An Ds A B Ft Fw Pu Pd Dp Sp H.
  assert (Sm : same_input f src (MkWorld f [])) by (intro r; reflexivity).
  assert (Gr : reached (excluded search (exclude_patterns exclude)) f src [] Dir) by (constructor; exact Ds).
  assert (Ft' : fit search (exclude_patterns exclude) f src dst (fun _ => True) (MkWorld f [])) by (intros r e G _; exact (Ft r e G)).
  assert (T := root_ends convert order search (exclude_patterns exclude) f src dst An A B Sp fuel (MkWorld f []) c Gr Dp Sm Sd Ft' Fw).
  unfold run in H. unfold bind at 1 in H. cbn [ret] in H.
  destruct (path_eqb_spec dst src) as [E|_]; [exfalso; apply A; rewrite E; apply inside_refl|].
  unfold see at 1 in H. cbn [disk] in H. unfold bind at 1 in H. unfold isfile, isdir in H. rewrite Ds in H.
  destruct T as [(w2 & c2 & T)|(w2 & e & T & St)]; rewrite T in H.
  - exfalso. assert (P := root_post convert order search (exclude_patterns exclude) f src dst An A B fuel (MkWorld f []) c w2 c2 Gr Sm Sd Ft' T).
    destruct (flush_after C convert codes_of search isort _ f src dst c w2 c2 Fw Pu Pd P) as [w3 Fl].
    unfold bind at 1 in H. unfold join_path in H. rewrite Fl in H. discriminate H.
  - injection H as <- <-. destruct St as (l & c1 & rel & s & ep & K & Lk & N & F & G & _ & I & R & Ch).
    exists l, c1, rel, s, ep. repeat (split; [assumption|]). split.
    + intros r s' t J. destruct (F _ _ _ J) as (X & _ & Y). auto.
    + intros p Np. destruct (Ch p) as [X|[X|(r & s' & t & X & Y)]]; [left; exact X|right; exact X|]. destruct (Np _ _ _ X Y).
Qed.
Print Assumptions C121_what_a_failed_conversion_leaves.

(** Such a conversion does fail as soon as one of the files can never be converted: the
    other files do not get converted past it. *)
Theorem C121_one_bad_file_fails_the_project :
  forall (C : Type) (convert : (string -> bool) -> string -> string -> C -> res (string * C)) codes_of order search isort
    (fuel : nat) (cwd src : path) (out : option path) (exclude : option string) (c : C) (f : fs) rel s,
  let dst := destination cwd out in
  let takes_part := reached (is_excluded search exclude) f src in
  sound f -> any_order order -> f @@ src = Some Dir -> ~ inside dst src -> ~ inside src dst ->
  (forall rel e, takes_part rel e -> fits e (f @@ (rel ++ dst))) ->
  takes_part rel (File s) ->
  (forall exists_path c, looks_at f (fun p => inside p src) exists_path -> exists x, convert exists_path (render (rel ++ src)) s c = Raise x) ->
  exists w x, run convert codes_of order search isort fuel cwd None src out exclude c (MkWorld f []) = (w, Raise x).
Proof.
  intros C convert codes_of order search isort fuel cwd src out exclude c f rel s dst takes_part Sd An Ds A B Ft G Bad.
  destruct (run convert codes_of order search isort fuel cwd None src out exclude c (MkWorld f [])) as [w [c'|x]] eqn:H; [|exists w, x; reflexivity].
  exfalso. destruct (PropertiesFiles.C44_output_mirrors_input C convert codes_of order search isort fuel cwd src out exclude c c' f w Sd An Ds A B Ft H)
    as ((l & K & _ & I & _) & _).
  destruct (proj2 (I rel s) G) as [t J]. clear - K J Bad.
  induction K as [|ep r0 s0 t0 c1 c2 l c3 Lk E K IH]; [destruct J|]. destruct J as [J|J]; [|exact (IH J)].
  injection J as -> -> ->. destruct (Bad ep c1 Lk) as [x X]. congruence.
Qed.
Print Assumptions C121_one_bad_file_fails_the_project.

(** So the files converted before are left without the helper functions they use.  A project
    of two files, [a.py] calling an API that needs a helper function and [b.py] which is not
    Python: [a.py] is in the output, [paddle_utils.py] is not. *)
Definition ex_parse (s : string) : res node := if String.eqb s "import torch" then Ok PropertiesProgram.ex_tree else Raise "SyntaxError".
Definition ex_libraries : libraries :=
  MkLibraries PropertiesProgram.ex_tools false true (fun l => l) 100 ex_parse (fun _ => Ok "converted"%string) (fun _ => None) (fun _ => None)
    PropertiesProgram.number 5 (fun _ _ l => l) contains.
Definition ex_files : fs :=
  [([], Dir); (["in"%string], Dir); (["a.py"; "in"]%string, File "import torch"); (["b.py"; "in"]%string, File "print 1")].
Theorem C121_helpers_are_missing_after_a_failure_refuted :
  exists w w' c',
    program ex_libraries [] ["in"]%string (Some ["out"]%string) None (FileTree.MkWorld ex_files []) = (w, Raise "SyntaxError"%string) /\
    disk w @@ ["a.py"; "out"]%string = Some (File "converted") /\
    disk w @@ ["paddle_utils.py"; "out"]%string = None /\ disk w @@ ["b.py"; "out"]%string = None /\
    (* without the second file *)
    program ex_libraries [] ["in"]%string (Some ["out"]%string) None (FileTree.MkWorld (firstn 3 ex_files) []) = (w', Ok c') /\
    disk w' @@ ["a.py"; "out"]%string = Some (File "converted") /\
    exists body, disk w' @@ ["paddle_utils.py"; "out"]%string = Some (File body) /\ contains "# helpers of CanCastMatcher" body = true.
Proof.
  do 3 eexists. split; [vm_compute; reflexivity|]. split; [vm_compute; reflexivity|]. split; [vm_compute; reflexivity|].
  split; [vm_compute; reflexivity|]. split; [vm_compute; reflexivity|]. split; [vm_compute; reflexivity|].
  eexists. split; vm_compute; reflexivity.
Qed.
Print Assumptions C121_helpers_are_missing_after_a_failure_refuted.

(** The failing project meets the hypotheses of the first theorem. *)
Lemma ex_reached rel e : reached (is_excluded contains None) ex_files ["in"%string] rel e ->
  (rel = [] /\ e = Dir) \/ (rel = ["a.py"]%string /\ e = File "import torch") \/ (rel = ["b.py"]%string /\ e = File "print 1").
Proof.
  assert (D : forall n p e, ex_files @@ (n :: p) = Some e -> (n = "in"%string /\ p = [] /\ e = Dir) \/ (n = "a.py"%string /\ p = ["in"%string] /\ e = File "import torch") \/ (n = "b.py"%string /\ p = ["in"%string] /\ e = File "print 1")).
  { intros n p e0 H. unfold at_path, ex_files in H. cbn [dget] in H. change (path_eqb (n :: p) []) with false in H. cbv iota in H.
    destruct (path_eqb_spec (n :: p) ["in"%string]) as [E|_]; [injection E as -> ->; injection H as <-; auto|].
    destruct (path_eqb_spec (n :: p) ["a.py"; "in"]%string) as [E|_]; [injection E as -> ->; injection H as <-; auto|].
    destruct (path_eqb_spec (n :: p) ["b.py"; "in"]%string) as [E|_]; [injection E as -> ->; injection H as <-; auto|]. discriminate. }
  induction 1 as [e E|rel n e R IH V E X].
  - left. split; [reflexivity|]. vm_compute in E. congruence.
  - right. apply D in E as [(-> & E & ->)|[(-> & E & ->)|(-> & E & ->)]].
    + destruct rel; discriminate.
    + destruct rel as [|m [|? ?]]; [auto|injection E as -> E; discriminate|discriminate].
    + destruct rel as [|m [|? ?]]; [auto|injection E as -> E; discriminate|discriminate].
Qed.
Example C121_nonvacuous :
  let src := ["in"%string] in let dst := ["out"%string] in
  let takes_part := reached (is_excluded contains None) ex_files src in
  sound ex_files /\ any_order (fun (_ : fs) (_ : path) (l : list string) => l) /\ ex_files @@ src = Some Dir /\ ~ inside dst src /\ ~ inside src dst /\
  (forall rel e, takes_part rel e -> fits e (ex_files @@ (rel ++ dst))) /\
  (forall p, inside dst p -> ex_files @@ p = None \/ ex_files @@ p = Some Dir) /\
  (forall e, ex_files @@ ("paddle_utils.py"%string :: dst) = Some e -> exists s, e = File s) /\
  ~ takes_part ["paddle_utils.py"%string] Dir /\
  (forall rel e, takes_part rel e -> (List.length rel < 100)%nat) /\
  (forall rel, ~ takes_part rel Special) /\
  takes_part ["b.py"%string] (File "print 1") /\
  exists w, program ex_libraries [] src (Some dst) None (FileTree.MkWorld ex_files []) = (w, Raise "SyntaxError"%string) /\
    disk w @@ ["a.py"; "out"]%string = Some (File "converted").
Proof.
  cbv zeta. split; [|split; [|split; [|split; [|split; [|split; [|split; [|split; [|split; [|split; [|split; [|split]]]]]]]]]]].
  - unfold sound. cbn. repeat (constructor; [intros J; cbn in J; intuition discriminate|]). constructor.
  - intros f p l. apply Permutation_refl.
  - reflexivity.
  - intros [[|? [|? ?]] E]; discriminate E.
  - intros [[|? [|? ?]] E]; discriminate E.
  - intros rel e R. destruct (ex_reached _ _ R) as [[-> ->]|[[-> ->]|[-> ->]]]; exact I.
  - intros p [r E]. destruct r as [|n r]; cbn in E; [subst p; left; reflexivity|]. injection E as _ E. destruct r; [|discriminate]. destruct p; [|discriminate]. right. reflexivity.
  - intros e E. vm_compute in E. discriminate.
  - intros R. destruct (ex_reached _ _ R) as [[E _]|[[E _]|[E _]]]; discriminate.
  - intros rel e R. destruct (ex_reached _ _ R) as [[-> _]|[[-> _]|[-> _]]]; cbn; lia.
  - intros rel R. destruct (ex_reached _ _ R) as [[_ E]|[[_ E]|[_ E]]]; discriminate.
  - apply reached_in; [apply reached_top; reflexivity|reflexivity|reflexivity|reflexivity].
  - eexists. split; vm_compute; reflexivity.
Qed.
