(** What a conversion does to the file system. *)
From Coq Require Import Permutation Lia.
From Verif Require Import PyStr PyDict PyStrFacts PyDictFacts Ast UtilsFile Requirements Converter
  FileTree FileTreeSpec FileTreeFacts FileTreeMirror FileTreeRun FileTreeLoop FileTreeTotal.
Open Scope list_scope.

(** * C45 *)
Lemma perform_other o f p : p <> touches o -> perform o f @@ p = f @@ p.
Proof.
  intro N. destruct o as [q|q|q s]; cbn in *; [apply at_set_other; exact N| |apply at_set_other; exact N].
  destruct p; [reflexivity|]. apply (ddel_get_other _ path_eqb_spec). exact N.
Qed.
Lemma after_other l f p : (forall o, In o l -> touches o <> p) -> after l f @@ p = f @@ p.
Proof.
  induction l as [|o l IH]; intro H; [reflexivity|]. cbn. rewrite perform_other.
  - apply IH. intros o' I. apply H. right. exact I.
  - intro E. apply (H o); [left; reflexivity|]. congruence.
Qed.
Lemma near_not_inside dst src p : ~ inside dst src -> ~ inside src dst -> near dst p -> ~ inside p src.
Proof.
  intros A B [I|I] J.
  - destruct (inside_comparable _ _ _ I J); contradiction.
  - apply A. eapply inside_trans; eassumption.
Qed.

(** C45. If neither of the input and the output is inside the other: at every moment of the
    conversion, whether it finishes or stops with an exception, each path of the input is as
    it was.  [l2]: the operations done by then, the last one first. *)
Theorem C45_input_untouched :
  forall (C : Type) (convert : (string -> bool) -> string -> string -> C -> res (string * C)) codes_of order search isort
    (fuel : nat) (cwd src : path) (out : option path) (exclude : option string) (c : C) (f : fs) (w : world) (outcome : res C),
  ~ inside (destination cwd out) src -> ~ inside src (destination cwd out) ->
  run convert codes_of order search isort fuel cwd None src out exclude c (MkWorld f []) = (w, outcome) ->
  disk w = after (past w) f /\
  forall l1 l2, past w = l1 ++ l2 -> forall p, inside p src -> after l2 f @@ p = f @@ p.
Proof.
  intros C convert codes_of order search isort fuel cwd src out exclude c f w oc A B H.
  destruct (safe_run convert codes_of order search isort fuel cwd src out exclude c (MkWorld f [])) as (l & E1 & E2 & F).
  rewrite H in E1, E2. cbn in E1, E2. rewrite app_nil_r in E1. rewrite E1. split; [exact E2|].
  intros l1 l2 -> p I. apply Forall_app in F. destruct F as [_ F]. apply after_other. intros o J E.
  rewrite Forall_forall in F. specialize (F o J). cbn in F. rewrite E in F.
  exact (near_not_inside _ _ _ A B F I).
Qed.
Print Assumptions C45_input_untouched.

Definition as_listed : fs -> path -> list string -> list string := fun _ _ l => l.
Definition literal : string -> string -> bool := contains.
Definition no_codes {M} : conv M -> dict Z string := fun _ => [].
Lemma as_listed_any : any_order as_listed. Proof. intros f p l. apply Permutation_refl. Qed.

(** The output directory being outside of the input directory is not enough: with the
    output next to the input directory /w/p, the contents of /w/p/p replace those of /w/p. *)
Definition nested_project : fs :=
  [(["w"], Dir); (["p"; "w"], Dir); (["requirements.txt"; "p"; "w"], File "numpy");
   (["p"; "p"; "w"], Dir); (["requirements.txt"; "p"; "p"; "w"], File "torch")]%string.
Theorem C45_output_around_input_refuted :
  forall (M : Type) (u : setup M) (c : conv M) (isort : string -> option string), exists (src dst : path) (f : fs) (w : world),
  ~ inside dst src /\ dst <> src /\ sound f /\
  run (convert_text u) no_codes as_listed literal isort 10 [] None src (Some dst) None c (MkWorld f []) = (w, Ok c) /\
  exists p, inside p src /\ f @@ p = Some (File "numpy") /\ disk w @@ p = Some (File "paddlepaddle-gpu").
Proof.
  intros M u c isort. exists ["p"; "w"]%string, ["w"]%string, nested_project.
  eexists. split; [|split; [|split; [|split]]].
  - intros [[|? [|? ?]] E]; discriminate E.
  - discriminate.
  - unfold sound. cbn. repeat (constructor; [intros J; cbn in J; intuition discriminate|]). constructor.
  - vm_compute. reflexivity.
  - exists ["requirements.txt"; "p"; "w"]%string. split; [exists ["requirements.txt"%string]; reflexivity|]. split; reflexivity.
Qed.
Print Assumptions C45_output_around_input_refuted.

(** A single file converted into its own directory is overwritten. *)
Theorem C45_file_into_own_directory_refuted :
  forall (M : Type) (u : setup M) (c : conv M) (isort : string -> option string), exists (src dst : path) (f : fs) (w : world),
  ~ inside dst src /\ dst <> src /\ f @@ src = Some (File "torch") /\
  run (convert_text u) no_codes as_listed literal isort 10 [] None src (Some dst) None c (MkWorld f []) = (w, Ok c) /\
  disk w @@ src = Some (File "paddlepaddle-gpu").
Proof.
  intros M u c isort. exists ["requirements.txt"; "w"]%string, ["w"]%string, [(["w"], Dir); (["requirements.txt"; "w"], File "torch")]%string.
  eexists. split; [|split; [|split; [|split]]].
  - intros [[|? [|? ?]] E]; discriminate E.
  - discriminate.
  - reflexivity.
  - vm_compute. reflexivity.
  - reflexivity.
Qed.
Print Assumptions C45_file_into_own_directory_refuted.

(** * C44 *)

(** C44. A directory, the output apart from it and without clashes.  There is a sequence of
    conversions, one for each file that takes part, and no other; the new text of each is at
    the same relative path of the output (unless it is paddle_utils.py and helper functions
    were needed); the directories are there; and nothing else changed, except directories on
    the way to the output and its paddle_utils.py. *)
Theorem C44_output_mirrors_input :
  forall (C : Type) (convert : (string -> bool) -> string -> string -> C -> res (string * C)) codes_of order search isort
    (fuel : nat) (cwd src : path) (out : option path) (exclude : option string) (c c' : C) (f : fs) (w : world),
  let dst := destination cwd out in
  let takes_part := reached (is_excluded search exclude) f src in
  sound f -> any_order order -> f @@ src = Some Dir -> ~ inside dst src -> ~ inside src dst ->
  (forall rel e, takes_part rel e -> fits e (f @@ (rel ++ dst))) ->
  run convert codes_of order search isort fuel cwd None src out exclude c (MkWorld f []) = (w, Ok c') ->
  (exists l,
    conversions (looks_at f (fun p => inside p src)) convert src c l c' /\
    NoDup (map (fun x => fst (fst x)) l) /\
    (forall rel s, (exists text, In (rel, s, text) l) <-> takes_part rel (File s)) /\
    (forall rel s text, In (rel, s, text) l -> codes_of c' = [] \/ rel <> ["paddle_utils.py"%string] ->
       disk w @@ (rel ++ dst) = Some (File text))) /\
  (forall rel, takes_part rel Dir -> rel <> [] -> disk w @@ (rel ++ dst) = Some Dir) /\
  (forall p, disk w @@ p <> f @@ p ->
     (exists rel e, takes_part rel e /\ p = rel ++ dst /\ match e with File _ | Dir => True | _ => False end) \/
     (f @@ p = None /\ disk w @@ p = Some Dir /\ inside dst p) \/
     (codes_of c' <> [] /\ p = "paddle_utils.py"%string :: dst)).
Proof.
  intros C convert codes_of order search isort fuel cwd src out exclude c c' f w dst takes_part Sd An Ds A B Ft H.
  destruct (run_dir convert codes_of order search isort fuel cwd src out exclude c f w c' Sd An Ds A B Ft H) as (w2 & P & Fl).
  fold dst in P, Fl. destruct P as [(l & K & N & I & F) D Ch _]. apply flush_dir in Fl.
  assert (Same : forall p, p <> "paddle_utils.py"%string :: dst \/ codes_of c' = [] ->
            disk w @@ p = disk w2 @@ p \/ (disk w2 @@ p = None /\ disk w @@ p = Some Dir /\ inside dst p)).
  { intros p Np. destruct Fl as [[_ ->]|(Nc & _ & text & _ & _ & O)]; [left; reflexivity|]. destruct Np as [Np|Np]; [exact (O p Np)|contradiction]. }
  split; [|split].
  - exists l. split; [exact K|]. split; [exact N|]. split.
    + intros rel s. rewrite I. unfold takes_part. tauto.
    + intros rel s text J Cs. specialize (F rel s text J). destruct (Same (rel ++ dst)) as [E|(E & _)].
      * destruct Cs as [Cs|Cs]; [right; exact Cs|left]. intro E. apply Cs. apply (app_inv_tail dst). exact E.
      * rewrite E. exact F.
      * rewrite F in E. discriminate.
  - intros rel G N0. specialize (D rel G Logic.I N0).
    destruct Fl as [[_ ->]|(Nc & Nd & text & W1 & _ & O)]; [exact D|].
    destruct (path_eqb_spec (rel ++ dst) ("paddle_utils.py"%string :: dst)) as [E|Nq].
    + exfalso. apply Nd. rewrite <- E. exact D.
    + destruct (O _ Nq) as [E|(E & _)]; [rewrite E; exact D|rewrite D in E; discriminate].
  - intros p Np. destruct Fl as [[_ ->]|(Nc & Nd & text & W1 & _ & O)].
    + destruct (Ch p) as [E|[(r & e & G & _ & _ & E & X)|E]]; [contradiction|left; exists r, e; auto|right; left; exact E].
    + destruct (path_eqb_spec p ("paddle_utils.py"%string :: dst)) as [->|Nq]; [right; right; auto|].
      destruct (O p Nq) as [E|(E1 & E2 & E3)].
      * destruct (Ch p) as [E'|[(r & e & G & _ & _ & E' & X)|(E1 & E2 & E3)]]; [cbn in E'; congruence|left; exists r, e; auto|].
        right. left. rewrite E. auto.
      * destruct (Ch p) as [E'|[(r & e & G & _ & _ & E' & X)|(E1' & E2' & E3')]]; [|left; exists r, e; auto|].
        -- right. left. rewrite E' in E1. auto.
        -- congruence.
Qed.
Print Assumptions C44_output_mirrors_input.

(** C44. A single file: the output is the given path, or a file of the same name in it if it
    is a directory; nothing else changes but directories on the way to it. *)
Theorem C44_single_file :
  forall (C : Type) (convert : (string -> bool) -> string -> string -> C -> res (string * C)) codes_of order search isort
    (fuel : nat) (cwd src dst : path) (exclude : option string) (s : string) (c c' : C) (f : fs) (w : world),
  f @@ src = Some (File s) -> ~ inside dst src -> ~ inside src dst ->
  f @@ tl dst = Some Dir \/ f @@ tl dst = None ->
  let new := if isdir f dst then basename src :: dst else dst in
  run convert codes_of order search isort fuel cwd None src (Some dst) exclude c (MkWorld f []) = (w, Ok c') ->
  if is_excluded search exclude src then c' = c /\ (codes_of c = [] -> disk w = f)
  else exists exists_path text final,
    looks_at f (fun p => ~ inside dst p) exists_path /\ convert exists_path (render src) s c = Ok (text, c') /\
    disk w @@ new = Some (File final) /\
    (codes_of c' = [] -> final = text) /\
    (codes_of c' <> [] -> exists h, write_code isort (MkHelper (Some (render new)) false (codes_of c')) (Some text) = Written final h) /\
    forall p, p <> new -> disk w @@ p = f @@ p \/ (f @@ p = None /\ disk w @@ p = Some Dir /\ inside dst p).
Proof.
  intros C convert codes_of order search isort fuel cwd src dst exclude s c c' f w A B D E new H.
  exact (run_file convert codes_of order search isort fuel cwd src dst exclude s c f w c' A B D E H).
Qed.
Print Assumptions C44_single_file.

(** * C69 *)

(** C69. The output is inside the input (the default ./paddle_project of "-i ." is), the
    directories on the way from the input to it exist (./paddle_project is made first), have
    no hidden or excluded names, and no file of the input has such a name: whatever the
    recursion limit, the conversion does not succeed. *)
Theorem C69_output_inside_input_fails :
  forall (C : Type) (convert : (string -> bool) -> string -> string -> C -> res (string * C)) codes_of order search isort
    (fuel : nat) (cwd src : path) (out : option path) (exclude : option string) (c : C) (f : fs) (way_down : path),
  sound f -> any_order order ->
  destination cwd out = way_down ++ src -> way_down <> [] ->
  (forall r1 r2, way_down = r1 ++ r2 -> f @@ (r2 ++ src) = Some Dir \/ (out = None /\ r1 = [])) ->
  (forall n, In n way_down -> startswith n "." = false) ->
  (forall q, (forall n, In n q -> In n way_down) -> is_excluded search exclude (q ++ src) = false) ->
  (forall n p e, f @@ (n :: p) = Some e -> inside (n :: p) src -> In n way_down -> e = Dir) ->
  forall w c', run convert codes_of order search isort fuel cwd None src out exclude c (MkWorld f []) <> (w, Ok c').
Proof.
  intros C convert codes_of order search isort fuel cwd src out exclude c f r Sd An Ed Nr Wy Vis Ex Od w c' H.
  apply run_parts in H. destruct H as (w1 & w2 & S1 & _ & T & _). rewrite Ed in *. revert T.
  assert (O1 : only_dirs src r (MkWorld f [])) by (intros n p e X I J; exact (Od n p e X I J)).
  apply (never_ends convert order search (exclude_patterns exclude) src r An Vis Ex fuel [] r); auto.
  - intros n [].
  - cbn [app].
    assert (I0 : inv src r (fun p => exists r1 r2, r = r1 ++ r2 /\ r1 <> [] /\ p = r2 ++ src) (MkWorld f [])).
    { split; [exact Sd|]. split; [exact O1|]. intros p (r1 & r2 & E & N1 & ->). destruct (Wy r1 r2 E) as [X|[_ X]]; [exact X|congruence]. }
    assert (K : inv src r (fun p => exists r1 r2, r = r1 ++ r2 /\ r1 <> [] /\ p = r2 ++ src) w1 /\ disk w1 @@ (r ++ src) = Some Dir).
    { destruct S1 as [[-> Ea]|[En M]].
      - split; [exact I0|]. cbn [disk]. destruct (Wy [] r eq_refl) as [X|[X _]]; [exact X|].
        specialize (Ea X). cbn [disk] in Ea. unfold exists_at in Ea.
        destruct (f @@ (r ++ src)) as [e|] eqn:Y; [|discriminate]. destruct r as [|n r]; [congruence|].
        rewrite (Od n (r ++ src) e Y); [reflexivity|exists (n :: r); reflexivity|left; reflexivity].
      - assert (K := keeps_makedirs src r _ (r ++ src) _ I0). rewrite M in K. split; [exact K|]. apply makedirs_spec in M. apply M. }
    destruct K as [(Sd1 & O2 & Dd) Dw]. split; [exact Sd1|]. split; [exact O2|].
    intros p (r1 & r2 & E & ->). destruct r1 as [|n r1]; [cbn in E; subst r2; exact Dw|].
    apply Dd. exists (n :: r1), r2. split; [exact E|]. split; [discriminate|reflexivity].
Qed.
Print Assumptions C69_output_inside_input_fails.

(** [paconvert -i .] in a directory with one file, no path excluded. *)
Example C69_nonvacuous :
  forall (C : Type) convert codes_of isort fuel (c : C) w c',
  run convert codes_of as_listed (fun _ _ => false) isort fuel ["w"%string] None ["w"%string] None None c
    (MkWorld [(["w"], Dir); (["a.txt"; "w"], File "text")]%string []) <> (w, Ok c').
Proof.
  intros C convert codes_of isort fuel c w c'.
  apply (C69_output_inside_input_fails C convert codes_of as_listed (fun _ _ => false) isort fuel ["w"%string] ["w"%string] None None c _ ["paddle_project"%string]).
  - unfold sound. cbn. repeat (constructor; [intros J; cbn in J; intuition discriminate|]). constructor.
  - apply as_listed_any.
  - reflexivity.
  - discriminate.
  - intros [|x [|]] r2 E; cbn in E; [right; auto|left|discriminate]. injection E as _ <-. reflexivity.
  - intros n [<-|[]]. reflexivity.
  - reflexivity.
  - intros n p e. cbn. destruct (String.eqb_spec n "w"); [subst n; intros _ _ [X|[]]; discriminate X|].
    destruct (String.eqb_spec n "a.txt"); [subst n; intros _ _ [X|[]]; discriminate X|]. cbn. discriminate.
Qed.

(** * Examples for C44 and C45 *)
Definition ex_disk : fs :=
  [(["in"], Dir); (["a.txt"; "in"], File "one"); (["requirements.txt"; "in"], File "torch"); ([".git"; "in"], Dir);
   (["config"; ".git"; "in"], File "hidden"); (["sub"; "in"], Dir); (["b.txt"; "sub"; "in"], File "two");
   (["__pycache__"; "in"], Dir); (["x.pyc"; "__pycache__"; "in"], File "three"); (["link"; "in"], Dangling);
   (["empty"; "in"], Dir); (["out"], Dir); (["a.txt"; "out"], File "stale"); (["other"; "out"], File "mine")]%string.
Lemma ex_reached rel e : reached (is_excluded literal None) ex_disk ["in"%string] rel e ->
  In (rel, e) [([], Dir); (["a.txt"], File "one"); (["requirements.txt"], File "torch"); (["sub"], Dir);
               (["b.txt"; "sub"], File "two"); (["link"], Dangling); (["empty"], Dir)]%string.
Proof.
  induction 1 as [e H|rel n e H IH V A X]; [injection H as <-; cbn; auto|].
  assert (Nn : forall m, n <> m -> String.eqb n m = false) by (intros m N; apply String.eqb_neq; exact N).
  cbn in IH. repeat (destruct IH as [IH|IH]; [try discriminate IH; injection IH as <-|]); [ | | | ].
  - cbn in A.
    destruct (String.eqb_spec n "in"); [subst; cbn in A; discriminate A|].
    destruct (String.eqb_spec n "a.txt"); [subst; cbn in A; injection A as <-; cbn; auto|].
    destruct (String.eqb_spec n "requirements.txt"); [subst; cbn in A; injection A as <-; cbn; auto|].
    destruct (String.eqb_spec n ".git"); [subst; discriminate V|].
    destruct (String.eqb_spec n "config"); [subst; cbn in A; discriminate A|].
    destruct (String.eqb_spec n "sub"); [subst; cbn in A; injection A as <-; cbn; auto|].
    destruct (String.eqb_spec n "b.txt"); [subst; cbn in A; discriminate A|].
    destruct (String.eqb_spec n "__pycache__"); [subst; discriminate X|].
    destruct (String.eqb_spec n "x.pyc"); [subst; cbn in A; discriminate A|].
    destruct (String.eqb_spec n "link"); [subst; cbn in A; injection A as <-; cbn; tauto|].
    destruct (String.eqb_spec n "empty"); [subst; cbn in A; injection A as <-; cbn; tauto|].
    destruct (String.eqb_spec n "out"); [subst; cbn in A; discriminate A|].
    destruct (String.eqb_spec n "other"); [subst; cbn in A; discriminate A|]. cbn in A. discriminate.
  - cbn in A. rewrite !andb_false_r in A. cbn in A.
    destruct (String.eqb_spec n "b.txt"); [subst; cbn in A; injection A as <-; cbn; tauto|]. cbn in A. discriminate.
  - cbn in A. rewrite !andb_false_r in A. discriminate.
  - destruct IH.
Qed.
Example C44_nonvacuous : forall (M : Type) (u : setup M) (c : conv M) (isort : string -> option string),
  let src := ["in"%string] in let dst := ["out"%string] in
  sound ex_disk /\ ex_disk @@ src = Some Dir /\ ~ inside dst src /\ ~ inside src dst /\
  (forall rel e, reached (is_excluded literal None) ex_disk src rel e -> fits e (ex_disk @@ (rel ++ dst))) /\
  exists w, run (convert_text u) no_codes as_listed literal isort 10 [] None src (Some dst) None c (MkWorld ex_disk []) = (w, Ok c) /\
    disk w @@ ["requirements.txt"; "out"]%string = Some (File "paddlepaddle-gpu") /\
    disk w @@ ["a.txt"; "out"]%string = Some (File "one") /\
    disk w @@ ["b.txt"; "sub"; "out"]%string = Some (File "two").
Proof.
  intros M u c isort src dst. split; [|split; [|split; [|split; [|split]]]].
  - unfold sound. cbn. repeat (constructor; [intros J; cbn in J; intuition discriminate|]). constructor.
  - reflexivity.
  - intros [[|? [|? ?]] E]; discriminate E.
  - intros [[|? [|? ?]] E]; discriminate E.
  - intros rel e G. apply ex_reached in G. cbn in G.
    repeat (destruct G as [G|G]; [injection G as <- <-; exact I|]). destruct G.
  - eexists. split; [vm_compute; reflexivity|]. repeat split.
Qed.

(** Without the condition on what is in the output already: a file of the input goes below a
    directory of its name. *)
Theorem C44_stale_directory_refuted :
  forall (M : Type) (u : setup M) (c : conv M) (isort : string -> option string), exists (src dst : path) (f : fs) (w : world),
  ~ inside dst src /\ ~ inside src dst /\ f @@ src = Some Dir /\ f @@ ("data"%string :: src) = Some (File "x") /\
  run (convert_text u) no_codes as_listed literal isort 10 [] None src (Some dst) None c (MkWorld f []) = (w, Ok c) /\
  disk w @@ ("data"%string :: dst) = Some Dir /\ disk w @@ ["data"; "data"; "out"]%string = Some (File "x").
Proof.
  intros M u c isort. exists ["in"]%string, ["out"]%string, [(["in"], Dir); (["data"; "in"], File "x"); (["out"], Dir); (["data"; "out"], Dir)]%string.
  eexists. split; [|split; [|split; [|split; [|split]]]].
  - intros [[|? [|? ?]] E]; discriminate E.
  - intros [[|? [|? ?]] E]; discriminate E.
  - reflexivity.
  - reflexivity.
  - vm_compute. reflexivity.
  - split; reflexivity.
Qed.
Print Assumptions C44_stale_directory_refuted.

(** * C70 *)

(** C70. If each file that takes part can be converted, none of them is a device or the like,
    the recursion limit exceeds the depth of the tree, and nothing is in the way in the
    output, the conversion of a directory finishes without exception. *)
Theorem C70_conversion_succeeds :
  forall (C : Type) (convert : (string -> bool) -> string -> string -> C -> res (string * C)) codes_of order search isort
    (fuel : nat) (cwd src dst : path) (exclude : option string) (c : C) (f : fs),
  let takes_part := reached (is_excluded search exclude) f src in
  sound f -> any_order order -> f @@ src = Some Dir -> ~ inside dst src -> ~ inside src dst ->
  (forall rel e, takes_part rel e -> fits e (f @@ (rel ++ dst))) ->
  (forall p, inside dst p -> f @@ p = None \/ f @@ p = Some Dir) ->
  (forall e, f @@ ("paddle_utils.py"%string :: dst) = Some e -> exists s, e = File s) ->
  ~ takes_part ["paddle_utils.py"%string] Dir ->
  (forall rel e, takes_part rel e -> (List.length rel < fuel)%nat) ->
  (forall rel, ~ takes_part rel Special) ->
  (forall exists_path rel s c, takes_part rel (File s) -> exists text c', convert exists_path (render (rel ++ src)) s c = Ok (text, c')) ->
  exists w c', run convert codes_of order search isort fuel cwd None src (Some dst) exclude c (MkWorld f []) = (w, Ok c').
Proof.
  intros C convert codes_of order search isort fuel cwd src dst exclude c f takes_part Sd An Ds A B Ft Fw Pu Pd Dp Sp Cv.
  assert (Sm : same_input f src (MkWorld f [])) by (intro r; reflexivity).
  assert (Gr : reached (excluded search (exclude_patterns exclude)) f src [] Dir) by (constructor; exact Ds).
  assert (Ft' : fit search (exclude_patterns exclude) f src dst (fun _ => True) (MkWorld f [])) by (intros r e G _; exact (Ft r e G)).
  destruct (root_total convert order search (exclude_patterns exclude) f src dst An A B Cv Sp fuel (MkWorld f []) c) as (w2 & c2 & T); auto.
  assert (P := root_post convert order search (exclude_patterns exclude) f src dst An A B fuel (MkWorld f []) c w2 c2 Gr Sm Sd Ft' T).
  unfold run. unfold bind at 1. cbn [ret].
  destruct (path_eqb_spec dst src) as [E|_]; [exfalso; apply A; rewrite E; apply inside_refl|].
  unfold see at 1. cbn [disk]. unfold bind at 1. rewrite T. unfold isfile, isdir. rewrite Ds. unfold bind at 1.
  assert (Fl : exists w3, flush codes_of isort (join_path dst "paddle_utils.py") true c2 w2 = (w3, Ok tt)).
  { unfold flush. destruct (codes_of c2) as [|x l] eqn:E; [eexists; reflexivity|]. rewrite <- E.
    unfold join_path. cbn [dirname tl].
    assert (F2 : free_way dst w2).
    { eapply free_way_kept; [exact (p_changes _ _ _ _ _ _ _ _ _ _ _ P)|]. exact Fw. }
    assert (M : exists w3, makedirs_ok dst w2 = (w3, Ok tt) /\ disk w3 @@ dst = Some Dir /\ grows dst w2 w3).
    { unfold makedirs_ok, see. destruct (F2 dst (inside_refl _)) as [X|X].
      - unfold isdir. rewrite X. destruct (makedirs_total dst w2 F2 X) as [w3 M]. exists w3. split; [exact M|].
        apply makedirs_spec in M. split; apply M.
      - unfold isdir. rewrite X. exists w2. split; [reflexivity|]. split; [exact X|apply grows_refl]. }
    destruct M as (w3 & M & D3 & G3). unfold bind at 1. rewrite M. unfold see at 1. unfold write_code, has_file. cbn [file_name code_map dir_mode].
    rewrite render_nonempty, E. cbn [negb]. unfold write_file, see. cbn [dirname tl]. unfold isdir. rewrite D3.
    assert (N3 : disk w3 @@ ("paddle_utils.py"%string :: dst) = None \/ exists s, disk w3 @@ ("paddle_utils.py"%string :: dst) = Some (File s)).
    { destruct (G3 ("paddle_utils.py"%string :: dst)) as [X|(_ & _ & [r X])].
      - rewrite X. destruct P as [(l' & _ & _ & I & F) _ Ch _].
        destruct (Ch ("paddle_utils.py"%string :: dst)) as [Y|[(r & e & G & _ & _ & Y & Z)|(_ & _ & [r Y])]].
        + rewrite Y. cbn [disk]. destruct (f @@ ("paddle_utils.py"%string :: dst)) as [e|] eqn:W; [right|left; reflexivity].
          destruct (Pu e eq_refl) as [s ->]. exists s. reflexivity.
        + change ("paddle_utils.py"%string :: dst) with (["paddle_utils.py"%string] ++ dst) in *. apply app_inv_tail in Y. subst r.
          destruct e as [s| | |]; [| |destruct Z|destruct Z].
          * right. destruct (proj2 (I _ s) (conj G Logic.I)) as [t J]. exists t. exact (F _ _ _ J).
          * destruct (Pd G).
        + exfalso. apply (f_equal (@List.length _)) in Y. rewrite app_length in Y. cbn in Y. lia.
      - exfalso. apply (f_equal (@List.length _)) in X. rewrite app_length in X. cbn in X. lia. }
    destruct N3 as [->|[s ->]]; eexists; reflexivity. }
  destruct Fl as [w3 Fl]. unfold join_path in Fl |- *. rewrite Fl. cbn. eexists. eexists. reflexivity.
Qed.
Print Assumptions C70_conversion_succeeds.

(** * C71 *)

(** C71 is violated: patterns are searched in the absolute path.  The same project is
    converted below /home and left out below /contest. *)
Definition at_home (d : string) : fs := [([d], Dir); (["p"; d], Dir); (["requirements.txt"; "p"; d], File "torch")]%string.
Theorem C71_exclusion_depends_on_location_refuted :
  forall (M : Type) (u : setup M) (c : conv M) (isort : string -> option string), exists w1 w2,
  run (convert_text u) no_codes as_listed literal isort 10 [] None ["p"; "home"]%string (Some ["out"]%string) (Some "test"%string) c
    (MkWorld (at_home "home") []) = (w1, Ok c) /\
  run (convert_text u) no_codes as_listed literal isort 10 [] None ["p"; "contest"]%string (Some ["out"]%string) (Some "test"%string) c
    (MkWorld (at_home "contest") []) = (w2, Ok c) /\
  disk w1 @@ ["requirements.txt"; "out"]%string = Some (File "paddlepaddle-gpu") /\
  disk w2 = at_home "contest".
Proof.
  intros. eexists. eexists. split; [vm_compute; reflexivity|]. split; [vm_compute; reflexivity|]. split; reflexivity.
Qed.
Print Assumptions C71_exclusion_depends_on_location_refuted.

(** * C72 *)

(** C72. An empty entry in the list of patterns, such as a comma at its end makes, leaves out
    everything: nothing is written at all. *)
Theorem C72_empty_pattern_excludes_everything :
  forall (C : Type) (convert : (string -> bool) -> string -> string -> C -> res (string * C)) codes_of order search isort
    (fuel : nat) (cwd src dst : path) (patterns : string) (c : C) (f : fs),
  (forall text, search ""%string text = true) -> In ""%string (split_on "," patterns) -> patterns <> ""%string ->
  f @@ src = Some Dir -> dst <> src -> codes_of c = [] ->
  run convert codes_of order search isort (S fuel) cwd None src (Some dst) (Some patterns) c (MkWorld f []) = (MkWorld f [], Ok c).
Proof.
  intros C convert codes_of order search isort fuel cwd src dst patterns c f Sr J Np Ds N Nc.
  assert (X : forall p, excluded search (exclude_patterns (Some patterns)) p = true).
  { intro p. unfold excluded. apply existsb_exists. exists ""%string. split; [|apply Sr].
    unfold exclude_patterns. destruct patterns; [congruence|]. apply in_or_app. left. exact J. }
  unfold run. unfold bind at 1. cbn [ret]. destruct (path_eqb_spec dst src) as [|_]; [contradiction|].
  unfold see at 1. cbn [disk]. unfold isfile, isdir. rewrite Ds. unfold bind at 1.
  assert (T : transfer_dir convert order search (S fuel) (exclude_patterns (Some patterns)) src dst c (MkWorld f []) = (MkWorld f [], Ok c)).
  { cbn [transfer_dir]. unfold see at 1. cbn [disk]. rewrite Ds. induction (filter _ _) as [|n l IH]; [reflexivity|].
    cbn [for_each]. unfold bind at 1. cbv zeta. rewrite X. cbn [ret]. exact IH. }
  rewrite T. unfold flush. rewrite Nc. reflexivity.
Qed.
Print Assumptions C72_empty_pattern_excludes_everything.
Example C72_nonvacuous : In ""%string (split_on "," "test,") /\ forall text, literal "" text = true.
Proof. split; [right; left; reflexivity|]. intros []; reflexivity. Qed.

(** * C73 *)

(** C73 is violated: whenever a helper function is needed in the conversion of a directory,
    the file paddle_utils.py of the project itself is replaced. *)
Theorem C73_project_file_replaced_refuted :
  forall (C : Type) (convert : (string -> bool) -> string -> string -> C -> res (string * C)) codes_of order search isort
    (fuel : nat) (cwd src dst : path) (exclude : option string) (c c' : C) (f : fs) (w : world),
  sound f -> any_order order -> f @@ src = Some Dir -> ~ inside dst src -> ~ inside src dst ->
  (forall rel e, reached (is_excluded search exclude) f src rel e -> fits e (f @@ (rel ++ dst))) ->
  run convert codes_of order search isort fuel cwd None src (Some dst) exclude c (MkWorld f []) = (w, Ok c') ->
  codes_of c' <> [] ->
  exists sorted, disk w @@ ("paddle_utils.py"%string :: dst) = Some (File sorted) /\
    let text := join nls ((nls ++ "import paddle" ++ nls)%string :: START_CONTENT :: INIT_CONTENT :: dvals (codes_of c') ++ [END_CONTENT]) in
    (isort text = Some sorted \/ (isort text = None /\ sorted = text)).
Proof.
  intros C convert codes_of order search isort fuel cwd src dst exclude c c' f w Sd An Ds A B Ft H Nc.
  destruct (run_dir convert codes_of order search isort fuel cwd src (Some dst) exclude c f w c' Sd An Ds A B Ft H) as (w2 & _ & Fl).
  apply flush_dir in Fl. destruct Fl as [[X _]|(_ & _ & text & W & E & _)]; [contradiction|].
  exists text. split; [exact W|]. cbv zeta. unfold format, insert_code in E. cbn [dir_mode code_map app] in E.
  destruct (isort _) as [t|]; [left; congruence|right; auto].
Qed.
Print Assumptions C73_project_file_replaced_refuted.

(** * C74 *)

(** C74 is violated: with a file on the way to the output, that file is deleted, even if it
    is the input. *)
Theorem C74_file_on_the_way_deleted_refuted :
  forall (M : Type) (u : setup M) (c : conv M) (isort : string -> option string), exists (src dst : path) (f : fs) (w : world) (e : string),
  f @@ src = Some (File "torch") /\ dst <> src /\
  run (convert_text u) no_codes as_listed literal isort 10 [] None src (Some dst) None c (MkWorld f []) = (w, Raise e) /\
  disk w @@ src = Some Dir /\ (forall p s, disk w @@ p <> Some (File s)).
Proof.
  intros M u c isort. exists ["a.py"]%string, ["b.py"; "a.py"]%string, [(["a.py"], File "torch")]%string. eexists. eexists.
  split; [|split; [|split; [|split]]].
  - reflexivity.
  - discriminate.
  - vm_compute. reflexivity.
  - reflexivity.
  - intros p s. cbn. destruct p as [|n p]; [discriminate|]. cbn. destruct (_ && _)%bool; discriminate.
Qed.
Print Assumptions C74_file_on_the_way_deleted_refuted.
Example C70_nonvacuous : forall (M : Type) (u : setup M) (c : conv M) (isort : string -> option string),
  exists w c', run (convert_text u) no_codes as_listed literal isort 3 [] None ["in"%string] (Some ["out"%string]) None c (MkWorld ex_disk []) = (w, Ok c').
Proof.
  intros M u c isort. destruct (C44_nonvacuous M u c isort) as (Sd & Ds & A & B & Ft & _).
  apply C70_conversion_succeeds; auto.
  - apply as_listed_any.
  - intros p [r E]. destruct r as [|n [|]]; cbn in E; [subst p; right; reflexivity|injection E as _ <-; right; reflexivity|discriminate].
  - intros e E. discriminate E.
  - intro G. apply ex_reached in G. cbn in G. intuition discriminate.
  - intros rel e G. apply ex_reached in G. cbn in G. repeat (destruct G as [G|G]; [injection G as <- _; cbn; lia|]). destruct G.
  - intros rel G. apply ex_reached in G. cbn in G. intuition discriminate.
  - intros ep rel s c0 G. apply ex_reached in G. cbn in G.
    repeat (destruct G as [G|G]; [try discriminate G; injection G as <- <-; eexists; eexists; reflexivity|]). destruct G.
Qed.
Example C73_nonvacuous : forall (M : Type) (u : setup M) (c : conv M), exists w,
  run (convert_text u) (fun _ => [(1%Z, "def helper(): pass"%string)]) as_listed literal (fun _ => None) 3 [] None ["in"%string] (Some ["out"%string]) None c
    (MkWorld (([(["paddle_utils.txt"; "in"], File "own")])%string ++ ex_disk) []) = (w, Ok c).
Proof. intros M u c. eexists. vm_compute. reflexivity. Qed.
