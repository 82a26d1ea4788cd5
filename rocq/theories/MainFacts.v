(** Proofs about Main.v. *)
From Verif Require Import PyStr PyDict Ast UtilsFile BasicPass Converter Shipped Program Main.
From Verif Require FileTree FileTreeSpec FileTreeFacts FileTreeMirror FileTreeRun.
Import FileTree FileTreeSpec FileTreeFacts FileTreeMirror FileTreeRun.
Open Scope list_scope.

(** ** Runs depend on the conversion function only through its values *)
Section Ext.
Context {C : Type}.
Variables convert convert' : (string -> bool) -> string -> string -> C -> res (string * C).
Hypothesis same : forall ex file s c, convert ex file s c = convert' ex file s c.
Variable order : fs -> path -> list string -> list string.
Variable search : string -> string -> bool.

Lemma bind_ext {A B} (x x' : act A) (k k' : A -> act B) w : x w = x' w -> (forall a w, k a w = k' a w) -> FileTree.bind x k w = FileTree.bind x' k' w.
Proof. intros E K. unfold FileTree.bind. rewrite E. destruct (x' w) as [w1 [a|e]]; [apply K|reflexivity]. Qed.
Lemma transfer_file_ext old new c w : transfer_file convert old new c w = transfer_file convert' old new c w.
Proof. unfold transfer_file, see. destruct (at_path _ _) as [[]|]; try reflexivity. rewrite same. reflexivity. Qed.
Lemma for_each_ext (step step' : string -> C -> act C) l : (forall n c w, step n c w = step' n c w) -> forall c w, for_each step l c w = for_each step' l c w.
Proof.
  intros E. induction l as [|n l IH]; intros c w; [reflexivity|]. cbn [for_each]. apply bind_ext; [apply E|exact IH].
Qed.
Lemma transfer_dir_ext fuel : forall pats src dst c w,
  transfer_dir convert order search fuel pats src dst c w = transfer_dir convert' order search fuel pats src dst c w.
Proof.
  induction fuel as [|fuel IH]; intros pats src dst c w; [reflexivity|]. cbn [transfer_dir]. unfold see at 1. symmetry. unfold see at 1. symmetry.
  destruct (at_path (disk w) src) as [[s| | |]|]; try reflexivity.
  - destruct (excluded search pats src); [reflexivity|]. cbv zeta. apply bind_ext; [reflexivity|]. intros _ w1. apply transfer_file_ext.
  - apply for_each_ext. intros n c1 w1. cbv zeta. destruct (excluded search pats (join_path src n)); [reflexivity|].
    apply bind_ext; [reflexivity|]. intros _ w2. apply IH.
Qed.
Lemma run_ext codes_of isort fuel cwd earlier src out exclude c w :
  run convert codes_of order search isort fuel cwd earlier src out exclude c w
  = run convert' codes_of order search isort fuel cwd earlier src out exclude c w.
Proof.
  unfold run. apply bind_ext; [reflexivity|]. intros _ w1. destruct (path_eqb _ src); [reflexivity|]. unfold see.
  apply bind_ext; [apply transfer_dir_ext|]. intros c1 w2. reflexivity.
Qed.
End Ext.

(** ** Formatters *)
Definition with_formatters (L : libraries) (b i : string -> option string) : libraries :=
  MkLibraries (matchers L) (complete_only L) (unformatted L) (sets L) (limit L) (parse_file L) (print_file L) b i
    (hash L) (probes L) (listing L) (found L).

Lemma unformatted_text L b i b' i' ex file s c : unformatted L = true ->
  convert_text (converter_setup (with_formatters L b i)) ex file s c = convert_text (converter_setup (with_formatters L b' i')) ex file s c.
Proof. intros U. unfold convert_text, convert_python. cbn [no_format converter_setup with_formatters unformatted]. rewrite U. reflexivity. Qed.
Lemma formatted_text L b i b' i' ex file s c : (forall x, or_same b x = or_same b' x) -> (forall x, or_same i x = or_same i' x) ->
  convert_text (converter_setup (with_formatters L b i)) ex file s c = convert_text (converter_setup (with_formatters L b' i')) ex file s c.
Proof.
  intros B I. unfold convert_text, convert_python. destruct (endswith file ".py"); [|reflexivity].
  destruct (TextFile.read_text s) as [source|]; [|reflexivity]. cbn [Ast.bind].
  change (py_parse (converter_setup (with_formatters L b' i')) source) with (py_parse (converter_setup (with_formatters L b i)) source).
  destruct (py_parse _ source) as [root|]; [|reflexivity]. cbn [Ast.bind].
  change (transfer_node (converter_setup (with_formatters L b' i')) ex file root c) with (transfer_node (converter_setup (with_formatters L b i)) ex file root c).
  destruct (transfer_node (converter_setup (with_formatters L b i)) ex file root c) as [[root' c1]|]; [|reflexivity]. cbn [Ast.bind].
  cbn [py_unparse converter_setup with_formatters print_file]. destruct (print_file L root') as [code|]; [|reflexivity]. cbn [Ast.bind].
  cbn [no_format black_format isort_format converter_setup with_formatters unformatted black isort]. rewrite B, I. reflexivity.
Qed.

(** The helper file is the only one that differs. *)
Lemma flush_other C codes_of isort isort' dst (c : C) w :
  snd (flush codes_of isort ("paddle_utils.py"%string :: dst) true c w) = snd (flush codes_of isort' ("paddle_utils.py"%string :: dst) true c w) /\
  (forall p, p <> "paddle_utils.py"%string :: dst ->
    disk (fst (flush codes_of isort ("paddle_utils.py"%string :: dst) true c w)) @@ p = disk (fst (flush codes_of isort' ("paddle_utils.py"%string :: dst) true c w)) @@ p) /\
  (codes_of c = [] -> flush codes_of isort ("paddle_utils.py"%string :: dst) true c w = flush codes_of isort' ("paddle_utils.py"%string :: dst) true c w).
Proof.
  unfold flush. destruct (codes_of c) as [|x l] eqn:E; [auto|]. unfold FileTree.bind. cbn [dirname tl].
  destruct (makedirs_ok dst w) as [w1 [[]|e]]; [|split; [reflexivity|split; [reflexivity|discriminate]]].
  unfold see. unfold write_code, has_file. cbn [file_name code_map dir_mode]. rewrite render_nonempty. cbn [negb].
  split; [|split; [|discriminate]].
  - unfold write_file, see. destruct (at_path (disk w1) _) as [[]|]; try reflexivity; destruct (isdir _ _); reflexivity.
  - intros p N. unfold write_file, see. destruct (at_path (disk w1) _) as [[]|]; try reflexivity; destruct (isdir _ _); try reflexivity;
      cbn [fst doing disk perform]; rewrite !at_set_other by exact N; reflexivity.
Qed.

(** The same outcome, and the same disk but for one path. *)
Definition alike {A} (q : path) (x x' : FileTree.world * res A) : Prop :=
  snd x = snd x' /\ forall p, p <> q -> disk (fst x) @@ p = disk (fst x') @@ p.
Lemma alike_refl {A} q (x : FileTree.world * res A) : alike q x x. Proof. split; reflexivity. Qed.
Lemma alike_bind {A B} q (x : act A) (k k' : A -> act B) w :
  (forall a w1, x w = (w1, Ok a) -> alike q (k a w1) (k' a w1)) -> alike q (FileTree.bind x k w) (FileTree.bind x k' w).
Proof. intros H. unfold FileTree.bind. destruct (x w) as [w1 [a|e]]; [apply H; reflexivity|apply alike_refl]. Qed.
Lemma alike_then {A B} q (x x' : act A) (g : A -> B) w : alike q (x w) (x' w) ->
  alike q (FileTree.bind x (fun a => ret (g a)) w) (FileTree.bind x' (fun a => ret (g a)) w).
Proof.
  intros [E D]. unfold FileTree.bind. destruct (x w) as [w1 r], (x' w) as [w2 r']. cbn [fst snd] in *. subst r'.
  destruct r; split; cbn [ret fst snd]; auto.
Qed.
Lemma run_isort C (cv : (string -> bool) -> string -> string -> C -> res (string * C)) codes order search isort isort' fuel cwd src out exclude c w :
  disk w @@ src = Some Dir ->
  alike ("paddle_utils.py"%string :: destination cwd out)
    (run cv codes order search isort fuel cwd None src out exclude c w) (run cv codes order search isort' fuel cwd None src out exclude c w).
Proof.
  intros Ds. unfold run. change (match out with Some p => p | None => join_path cwd "paddle_project" end) with (destination cwd out).
  set (dst := destination cwd out). apply alike_bind. intros [] w1 E.
  assert (D1 : disk w1 @@ src = Some Dir).
  { destruct out; [injection E as <-; exact Ds|]. unfold see in E. destruct (exists_at (disk w) dst); [injection E as <-; exact Ds|].
    apply makedirs_spec in E as (_ & G & _). destruct (G src) as [X|(_ & X & _)]; [rewrite X; exact Ds|exact X]. }
  destruct (path_eqb dst src); [apply alike_refl|]. unfold see. unfold isfile, isdir. rewrite D1. apply alike_bind. intros c1 w2 _.
  unfold join_path. unfold FileTree.bind. destruct (flush_other _ codes isort isort' dst c1 w2) as (P & Q & _).
  destruct (flush codes isort ("paddle_utils.py"%string :: dst) true c1 w2) as [w3 [[]|e]];
    destruct (flush codes isort' ("paddle_utils.py"%string :: dst) true c1 w2) as [w3' [[]|e']]; cbn [fst snd] in *; try discriminate P.
  - split; [reflexivity|exact Q].
  - split; [cbn; congruence|exact Q].
Qed.

Lemma run_isort_nothing C (cv : (string -> bool) -> string -> string -> C -> res (string * C)) codes order search isort isort' fuel cwd src out exclude c w w' c' :
  run cv codes order search isort fuel cwd None src out exclude c w = (w', Ok c') -> codes c' = [] ->
  run cv codes order search isort' fuel cwd None src out exclude c w = (w', Ok c').
Proof.
  intros H N. unfold run in *. apply bind_ok in H as (w1 & [] & H1 & H2). unfold FileTree.bind at 1. rewrite H1.
  destruct (path_eqb _ src); [discriminate|]. unfold see in *. apply bind_ok in H2 as (w2 & c2 & T & H2). unfold FileTree.bind at 1. rewrite T.
  destruct (if isfile (disk w1) src then _ else _) as [[file dirm]|]; [|discriminate].
  apply bind_ok in H2 as (w3 & [] & Fl & R). injection R as <- <-. unfold flush in Fl. rewrite N in Fl. injection Fl as <-.
  unfold FileTree.bind. unfold flush. rewrite N. reflexivity.
Qed.
Lemma run_isort_ext C (cv : (string -> bool) -> string -> string -> C -> res (string * C)) codes order search isort isort' fuel cwd earlier src out exclude c w :
  (forall x, format isort x = format isort' x) ->
  run cv codes order search isort fuel cwd earlier src out exclude c w = run cv codes order search isort' fuel cwd earlier src out exclude c w.
Proof.
  intros E. unfold run. apply bind_ext; [reflexivity|]. intros [] w1. destruct (path_eqb _ src); [reflexivity|]. unfold see.
  apply bind_ext; [reflexivity|]. intros c1 w2. destruct (if isfile (disk w1) src then _ else _) as [own|]; [|reflexivity].
  destruct (match earlier with Some h => h | None => own end) as [file dirm]. apply bind_ext; [|reflexivity].
  unfold flush. destruct (codes c1); [reflexivity|]. apply bind_ext; [reflexivity|]. intros [] w3. unfold see. unfold write_code.
  destruct (has_file _); [|reflexivity]. cbn [code_map dir_mode]. destruct dirm; [rewrite E; reflexivity|].
  destruct (match at_path (disk w3) file with Some (File s) => Some s | _ => None end) as [s|]; [|reflexivity].
  destruct (find_import_insert_idx (splitlines s)); [rewrite E; reflexivity|reflexivity].
Qed.
