(** Specification of the helper-code registry and of the insertion point,
    independent of the model in UtilsFile.v (only plain string vocabulary). *)
From Verif Require Import PyStr.

(** [t] is [c] without its trailing newlines. *)
Definition trimmed (c t : string) : Prop :=
  (exists k, c = t ++ String.concat "" (repeat nls k)) /\ ~ exists u, t = u ++ nls.

(** Keep the first occurrence of every text. *)
Fixpoint keep_first (l : list string) : list string :=
  match l with
  | [] => []
  | x :: r => x :: filter (fun y => negb (String.eqb x y)) (keep_first r)
  end.

Definition injective_on {A B} (f : A -> B) (l : list A) : Prop :=
  forall x y, In x l -> In y l -> f x = f y -> x = y.

Definition spaces_only (s : string) : Prop := forall a c b, s = a ++ String c b -> is_space c = true.

(** A blank or comment line. *)
Definition filler (l : string) : Prop :=
  spaces_only l \/ exists a b, spaces_only a /\ l = a ++ String "#" b.

(** The line starts, after indentation, with the keyword and a space, and there is
    something other than blanks after it. *)
Definition starts_with_word (w l : string) : Prop :=
  exists a b, spaces_only a /\ l = a ++ w ++ " " ++ b /\ ~ spaces_only b.

(** The last non-blank character of the line is a backslash. *)
Definition backslash_end (l : string) : Prop :=
  exists a b, l = a ++ String "\" b /\ spaces_only b.

Definition parens (l : string) : Z :=
  (Z.of_nat (py_count l "(") - Z.of_nat (py_count l ")"))%Z.
Definition open_parens (ls : list string) : Z :=
  fold_right (fun l acc => (parens l + acc)%Z) 0%Z ls.

(** [import_block ls]: [ls] is one import statement over its lines: every line but
    the last continues it.  For [from] statements an open parenthesis continues
    the statement too. *)
Definition continues (from : bool) (before : list string) (l : string) : Prop :=
  backslash_end l \/ (from = true /\ (0 < open_parens (before ++ [l]))%Z).

Definition import_block (from : bool) (ls : list string) : Prop :=
  (exists h t, ls = h :: t /\ starts_with_word (if from then "from" else "import") h) /\
  forall before l after, ls = (before ++ l :: after)%list -> after <> [] -> continues from before l.

(** The statement is finished: its last line does not continue. *)
Definition complete (from : bool) (ls : list string) : Prop :=
  forall before l, ls = (before ++ [l])%list -> ~ continues from before l.

(** [header hs rest]: [hs] is empty, or fillers and import statements ending with
    an import statement; every statement is complete unless the file ends there. *)
Inductive header : list string -> list string -> Prop :=
| header_nil rest : header [] rest
| header_last fill from b rest :
    Forall filler fill -> import_block from b -> (complete from b \/ rest = []) ->
    header (fill ++ b) rest
| header_more fill from b hs rest :
    Forall filler fill -> import_block from b -> complete from b -> hs <> [] ->
    header hs rest -> header (fill ++ b ++ hs) rest.

(** An ordinary line: neither filler nor the start of an import. *)
Definition ordinary (l : string) : Prop :=
  ~ filler l /\ ~ starts_with_word "import" l /\ ~ starts_with_word "from" l.

(** Lines as [splitlines] sees them; an empty file shows as one blank line when
    split at newlines. *)
Definition or_blank (ls : list string) : list string :=
  match ls with [] => [""] | _ => ls end.

(** The lines of the helper block written into a converted file, between the
    user's lines: banner, helper texts, banner, blank line. *)
Definition file_block (texts : list string) : list string :=
  (split_on nl (join nls
     (["############################## 相关utils函数，如下 ##############################"] ++ texts ++
      ["############################## 相关utils函数，如上 ##############################"])) ++ [""])%list.
