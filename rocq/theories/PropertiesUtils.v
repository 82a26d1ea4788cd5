(** C08-C14: helper code registry, helper file writing, fresh names. *)
From Verif Require Import PyStr PyStrFacts PyDict PyDictFacts UtilsFile UtilsSpec UtilsFacts RegistryFacts.

Lemma trimmed_map codes texts : Forall2 trimmed codes texts -> texts = map trim codes.
Proof. induction 1 as [|c t cs ts H _ IH]; [reflexivity|]. rewrite (trimmed_fun _ _ H), IH. reflexivity. Qed.

(** C08. *)
Theorem C08_helpers_once_in_order :
  forall (hash : string -> Z) (fuel : nat) (file : string) (dirm : bool) (codes texts : list string),
  file <> "" -> Forall2 trimmed codes texts -> injective_on hash texts ->
  exists h, add_all hash fuel (construct None (Some file) dirm) codes = Some h /\
    dvals (code_map h) = keep_first texts.
Proof.
  intros hash fuel file dirm codes texts Nf T I. apply trimmed_map in T. subst texts.
  destruct (add_all_inj hash fuel codes (construct None (Some file) dirm)) as (h & A & _ & _ & _ & V).
  - cbn. destruct (String.eqb_spec file ""); [congruence|reflexivity].
  - constructor.
  - exact I.
  - exists h. split; [exact A|]. rewrite V. cbn [construct code_map dvals app].
    clear. induction (keep_first (map trim codes)) as [|y l IH]; [reflexivity|].
    cbn. f_equal. exact IH.
Qed.
Print Assumptions C08_helpers_once_in_order.

(** In a directory conversion the helper file is exactly banner, helpers, banner
    (before the import sorter runs). *)
Theorem C08_directory_file_content :
  forall (isort : string -> option string) (h : helper) (existing : option string) (out : string) (h' : helper),
  dir_mode h = true -> write_code isort h existing = Written out h' ->
  exists text, out = (match isort text with Some t => t | None => text end) /\
    text = join nls (([(nls ++ "import paddle" ++ nls)%string; START_CONTENT; INIT_CONTENT]
                      ++ dvals (code_map h)) ++ [END_CONTENT])%list.
Proof.
  intros isort h ex out h' D H. unfold write_code in H. rewrite D in H.
  destruct (has_file h); [|discriminate]. destruct (code_map h) eqn:C; [discriminate|].
  injection H as <- _. exists (insert_code h). split; [reflexivity|].
  unfold insert_code. rewrite D, C, app_assoc. reflexivity.
Qed.
Print Assumptions C08_directory_file_content.

Example C08_nonvacuous :
  let hash (s : string) := Z.of_nat (String.length s) in
  Forall2 trimmed ["ab"; "c" ++ nls; "ab" ++ nls ++ nls; "c"] ["ab"; "c"; "ab"; "c"] /\
  injective_on hash ["ab"; "c"; "ab"; "c"] /\ keep_first ["ab"; "c"; "ab"; "c"] = ["ab"; "c"] /\
  option_map (fun h => dvals (code_map h))
    (add_all hash 0 (construct None (Some "f.py") true) ["ab"; "c" ++ nls; "ab" ++ nls ++ nls; "c"])
  = Some ["ab"; "c"].
Proof.
  intros hash. split; [|split; [|split; reflexivity]].
  - assert (T : forall c, trimmed c (trim c)) by apply trimmed_rstrip.
    repeat constructor; solve [exact (proj1 (T _)) | exact (proj2 (T "ab")) | exact (proj2 (T "c"))
     | exact (proj1 (T ("c" ++ nls))) | exact (proj1 (T ("ab" ++ nls ++ nls)))
     | exists 0; reflexivity | exists 1; reflexivity | exists 2; reflexivity].
  - intros x y Hx Hy. simpl in Hx, Hy. unfold hash. intuition subst; try reflexivity; discriminate.
Qed.

(** C09 (violated). Two texts whose hashes collide can make registration loop for
    ever, or register one text twice. *)
Theorem C09_collision_nontermination_refuted :
  exists (hash : string -> Z) (a b : string), a <> b /\
  forall fuel, add_all hash fuel (construct None (Some "out.py") false) [a; b] = None.
Proof.
  exists (fun _ => 0%Z), "a", "b". split; [discriminate|]. intros fuel. cbn [add_all].
  assert (A : add_code (fun _ => 0%Z) fuel (construct None (Some "out.py") false) "a"
              = Added (MkHelper (Some "out.py") false [(0%Z, "a")]) 0%Z) by (destruct fuel; reflexivity).
  rewrite A. unfold add_code. change (has_file _) with true. cbv iota zeta.
  change (rstrip_by (Ascii.eqb nl) "b") with "b". cbn [code_map].
  rewrite (proj2 (probe_loops_iff (fun _ => 0%Z) [(0%Z, "a")] "b")).
  - reflexivity.
  - split; exists "a"; split; (reflexivity || discriminate).
Qed.
Print Assumptions C09_collision_nontermination_refuted.

Theorem C09_collision_duplicate_refuted :
  exists (hash : string -> Z) (codes : list string) (h : helper),
  (forall fuel, (1 <= fuel)%nat -> add_all hash fuel (construct None (Some "out.py") false) codes = Some h) /\
  ~ NoDup (dvals (code_map h)).
Proof.
  exists (fun s => if String.eqb s "a" then 0 else if String.eqb s "b" then 0 else
           if String.eqb s "b_1" then 1 else if String.eqb s "c" then 2 else 3)%Z,
    ["a"; "b"; "c"; "b"], (MkHelper (Some "out.py") false [(0, "a"); (1, "b"); (2, "c"); (3, "b")]%Z).
  split.
  - intros [|fuel] H; [inversion H|]. destruct fuel; reflexivity.
  - cbn. intros N. inversion_clear N as [|? ? _ N2]. inversion_clear N2 as [|? ? N3 _].
    apply N3. right. left. reflexivity.
Qed.
Print Assumptions C09_collision_duplicate_refuted.

(** What does hold for every hash function: a registration sequence that returns
    has registered every text, nothing else, and kept the earlier ones first. *)
Theorem C09_nothing_lost :
  forall (hash : string -> Z) (fuel : nat) (h h' : helper) (codes texts : list string),
  Forall2 trimmed codes texts -> add_all hash fuel h codes = Some h' ->
  exists more, dvals (code_map h') = (dvals (code_map h) ++ more)%list /\
    (forall t, In t more -> In t texts) /\
    (forall t, In t texts -> In t (dvals (code_map h'))).
Proof.
  intros hash fuel h h' codes texts T A. apply trimmed_map in T. subst texts.
  destruct (add_all_sound _ _ _ _ _ A) as (_ & _ & (more & V & S) & P).
  exists more. split; [exact V|]. split; [exact S|].
  intros t Ht. apply in_map_iff in Ht as (c & <- & Hc). apply P, Hc.
Qed.
Print Assumptions C09_nothing_lost.

(** Exactly when one registration never returns. *)
Theorem C09_loops_iff :
  forall (hash : string -> Z) (cm : dict Z string) (code : string),
  (forall fuel, get_code_hash hash fuel cm code = None) <->
  (exists c1, dget Z.eqb (hash code) cm = Some c1 /\ c1 <> code) /\
  (exists c2, dget Z.eqb (hash (code ++ "_" ++ nat_to_str (List.length cm))) cm = Some c2 /\ c2 <> code).
Proof. exact probe_loops_iff. Qed.
Print Assumptions C09_loops_iff.

(** C10. For every file content and every import sorter: the text handed to the
    sorter consists of the first k lines, the block, and the remaining lines
    (an empty half shows as one blank line). *)
Theorem C10_insertion_keeps_file :
  forall (isort : string -> option string) (h : helper) (content : string),
  has_file h = true -> code_map h <> [] -> dir_mode h = false ->
  exists k text,
    write_code isort h (Some content) =
      Written (match isort text with Some t => t | None => text end) (MkHelper (file_name h) false []) /\
    (k <= List.length (splitlines content))%nat /\
    split_on nl text =
      (or_blank (firstn k (splitlines content)) ++ file_block (dvals (code_map h)) ++
       or_blank (skipn k (splitlines content)))%list.
Proof.
  intros isort h content Hf Hc Hd.
  destruct (file_write_lines isort h (Some content) content Hf Hc Hd eq_refl) as (k & out & A & _ & B & C).
  exists k, out. auto.
Qed.
Print Assumptions C10_insertion_keeps_file.

(** [splitlines] is splitting at newlines (a final newline does not start a line)
    when the file has no other line-break characters. *)
Theorem C10_lines_are_lines :
  forall s, (forall a c b, s = a ++ String c b -> is_linebreak c = true -> c = nl) ->
  or_blank (splitlines s) = split_on nl s \/ (splitlines s ++ [""])%list = split_on nl s.
Proof. exact splitlines_plain. Qed.
Print Assumptions C10_lines_are_lines.

Example C10_nonvacuous :
  write_code (fun _ => None) (MkHelper (Some "f.py") false [(5%Z, "def f(): pass")])
    (Some ("import os" ++ nls ++ "x = 1" ++ nls))
  = Written ("import os" ++ START_CONTENT ++ nls ++ "def f(): pass" ++ nls ++ END_CONTENT ++ "x = 1")
            (MkHelper (Some "f.py") false []).
Proof. reflexivity. Qed.

(** C50 (violated). A form feed in the converted file does not survive. *)
Theorem C50_form_feed_kept_refuted :
  exists (h : helper) (content text : string) (h' : helper),
  dir_mode h = false /\ contains (String "012" "") content = true /\
  write_code (fun _ => None) h (Some content) = Written text h' /\
  contains (String "012" "") text = false.
Proof.
  exists (MkHelper (Some "f.py") false [(5%Z, "def f(): pass")]), ("x = '" ++ String "012" "'").
  eexists. eexists. split; [reflexivity|]. split; [reflexivity|]. split; reflexivity.
Qed.
Print Assumptions C50_form_feed_kept_refuted.

(** C11. The insertion point is always found; everything before it is a header. *)
Theorem C11_insertion_point_after_imports :
  forall lines : list string, exists H B R,
  lines = (H ++ B ++ R)%list /\ find_import_insert_idx lines = Some (List.length H) /\
  header H (B ++ R) /\ Forall filler B /\ (R = [] \/ exists l R', R = l :: R' /\ ordinary l).
Proof. exact find_idx_spec. Qed.
Print Assumptions C11_insertion_point_after_imports.

Example C11_nonvacuous :
  find_import_insert_idx ["# c"; "from a import (b,"; "  c)"; "import x as \"; "  y"; ""; "x = 1"; "import z"] = Some 5.
Proof. reflexivity. Qed.

(** The header is the leading run only: a docstring hides the imports below it, so
    the helpers are put in front of a [from __future__] import. *)
Theorem C51_helpers_before_future_import_refuted :
  exists lines k j, find_import_insert_idx lines = Some k /\
    nth_error lines j = Some "from __future__ import annotations" /\ (k <= j)%nat.
Proof.
  exists [String quote2 (String quote2 (String quote2 "doc"));
          String quote2 (String quote2 (String quote2 "")); "from __future__ import annotations"; "import os"], 0, 2.
  repeat split; repeat constructor.
Qed.
Print Assumptions C51_helpers_before_future_import_refuted.

(** C12. After a write the registry is as after construction. *)
Theorem C12_flush_once :
  forall (isort : string -> option string) (h : helper) (existing : option string) (out : string) (h' : helper),
  write_code isort h existing = Written out h' ->
  (forall isort2 existing2, write_code isort2 h' existing2 = NoWrite) /\
  h' = construct None (file_name h) (dir_mode h).
Proof.
  intros isort h ex out h' H. unfold write_code in H.
  assert (E : h' = MkHelper (file_name h) (dir_mode h) []).
  { destruct (has_file h); [|discriminate]. destruct (code_map h); [discriminate|].
    destruct (dir_mode h) eqn:D.
    - injection H as _ <-. reflexivity.
    - destruct ex; [|discriminate]. destruct (find_import_insert_idx (splitlines s)); [|discriminate].
      injection H as _ <-. reflexivity. }
  subst h'. split; [|reflexivity]. intros i2 e2. unfold write_code. cbn [code_map].
  destruct (has_file _); reflexivity.
Qed.
Print Assumptions C12_flush_once.

Example C12_nonvacuous : exists out h',
  write_code (fun _ => None) (MkHelper (Some "f.py") true [(5%Z, "x")]) None = Written out h'.
Proof. eexists. eexists. reflexivity. Qed.

(** C13 (violated). With several conversions in one process all helper code goes to
    the file of the first conversion ... *)
Theorem C13_all_jobs_use_first_file :
  forall hash isort fuel (first : job) (rest : list job) ws,
  run_jobs hash isort fuel None (first :: rest) = Some ws ->
  forall f c, In (Some (f, c)) ws -> f = Some (job_file first).
Proof.
  intros hash isort fuel first rest ws H f c I.
  assert (H2 : run_jobs hash isort fuel (Some (construct None (Some (job_file first)) (job_dir first))) (first :: rest) = Some ws)
    by exact H.
  apply run_jobs_first_file in H2. rewrite Forall_forall in H2. apply (H2 _ I).
Qed.
Print Assumptions C13_all_jobs_use_first_file.

(** ... so the second conversion's helpers end up in the wrong place. *)
Theorem C13_isolation_refuted :
  exists hash isort j1 j2 w1 c, job_file j1 <> job_file j2 /\
  run_jobs hash isort 0 None [j1; j2] = Some [w1; Some (Some (job_file j1), c)].
Proof.
  exists (fun s => Z.of_nat (String.length s)), (fun _ => None),
    (MkJob "a/paddle_utils.py" true ["x = 1"] None), (MkJob "b/paddle_utils.py" true ["yy = 1"] None).
  eexists. eexists. split; [discriminate|reflexivity].
Qed.
Print Assumptions C13_isolation_refuted.

(** C14. *)
Theorem C14_names_never_repeat : forall keys : list string, NoDup (unique_names [] keys).
Proof. exact (unique_names_nodup []). Qed.
Print Assumptions C14_names_never_repeat.

(** Each name is its key, an underscore and the number of earlier requests. *)
Theorem C14_names_exact :
  forall (keys : list string) (i : nat) (k : string),
  nth_error keys i = Some k ->
  nth_error (unique_names [] keys) i = Some (k ++ "_" ++ nat_to_str (count_occ string_dec (firstn i keys) k)).
Proof.
  intros keys i k H. rewrite (unique_names_nth _ _ _ _ H). cbn [count_of dget Nat.add]. do 4 f_equal.
  generalize (firstn i keys). intros l. induction l as [|x l IH]; [reflexivity|]. cbn [occurrences count_occ].
  rewrite IH. destruct (string_dec x k) as [->|N].
  - rewrite String.eqb_refl. reflexivity.
  - destruct (String.eqb_spec k x); [congruence|reflexivity].
Qed.
Print Assumptions C14_names_exact.

Example C14_nonvacuous :
  unique_names [] ["out"; "out_1"; "out"; "out_1"; "perm"] = ["out_0"; "out_1_0"; "out_1"; "out_1_1"; "perm_0"].
Proof. reflexivity. Qed.
