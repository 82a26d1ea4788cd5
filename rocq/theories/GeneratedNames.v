(** The names that generated code reads, and where they come from (C131).  Specification only. *)
From Verif Require Import PyStr PyDict UtilsFile Args TablesData Ast Generate GenerateSpec Grammar HelperScope HelperTexts Names.

Open Scope string_scope.

(** ** Words *)
(** Reading a text character by character, for the words that are names of their own: outside string
    literals, not after a dot, and not the [k] of a keyword argument [k=...].  [quote]: the quote of the
    literal read; [prev]: the character before (spaces after a dot do not count); [word]: the word begun;
    [keyword]: the word before a "=" just read, a name of its own if another "=" follows. *)
Record reader := MkReader { quote : option ascii; prev : ascii; word : string; keyword : string }.
Definition start : reader := MkReader None " " "" "".
Definition named (w : string) : list string := match w with EmptyString => [] | _ => [w] end.
Definition read_char (s : reader) (c : ascii) : list string * reader :=
  match quote s with
  | Some d => ([], if Ascii.eqb c d then MkReader None c "" "" else s)
  | None =>
      if word_char c && negb (String.eqb (word s) "") then ([], MkReader None c (word s ++ String c "") "")
      else
        let found := if Ascii.eqb c "=" then named (keyword s) else named (word s) in
        let next := if Ascii.eqb c " " && Ascii.eqb (prev s) "." then "."%char else c in
        (found,
         if mem_char c "'""" then MkReader (Some c) c "" ""
         else if word_start c && negb (word_char (prev s) || Ascii.eqb (prev s) ".") then MkReader None c (String c "") ""
         else MkReader None next "" (if Ascii.eqb c "=" then word s else ""))
  end.
Fixpoint read (s : reader) (t : string) : list string * reader :=
  match t with
  | EmptyString => ([], s)
  | String c t' => let (a, s1) := read_char s c in let (b, s2) := read s1 t' in ((a ++ b)%list, s2)
  end.
(** A part that comes from the call ends a word, like a closing bracket. *)
Definition foreign (s : reader) : list string * reader :=
  match quote s with Some _ => ([], s) | None => (named (word s), MkReader None ")" "" "") end.
(** The names [get_unique_name] makes (k_0, k_1, ...: utils.py:21-36) are left to C115, which says
    that the code assigns them. *)
Definition made (s : string) : bool :=
  match rsplit1 "_" s with Some (k, n) => wordb k && all_chars (in_range 48 57) n | None => false end.
Definition read_piece (s : reader) (p : piece) : list string * reader :=
  match sources p with
  | [] => if made (content p) then foreign s else read s (content p)
  | _ => foreign s
  end.
Fixpoint read_all (s : reader) (q : rope) : list string * reader :=
  match q with
  | [] => ([], s)
  | p :: q' => let (a, s1) := read_piece s p in let (b, s2) := read_all s1 q' in ((a ++ b)%list, s2)
  end.
(** The names in the parts of a generated text that do not come from the call. *)
Definition own_words (q : rope) : list string := let (l, s) := read_all start q in (l ++ named (word s))%list.

(** A line of [c] assigns [w] (possibly among others), imports it or names it in an import, or [w] is the
    variable of a loop or comprehension. *)
Definition introduces (w c : string) : Prop :=
  (exists l a b, In l (splitlines c) /\ l = a ++ " = " ++ b /\ In w (map py_strip (split_on "," a))) \/
  (exists l m, In l (splitlines c) /\ (py_strip l = "import " ++ w \/ py_strip l = "import " ++ m ++ " as " ++ w \/ py_strip l = "import " ++ w ++ " as " ++ m)) \/
  inside ("for " ++ w ++ " in ") c.

(** Names that are there in every module, and the package that replaces the package of the row. *)
Definition everywhere (w : string) : Prop := In w keywords_of_python \/ In w constants_of_python \/ In w builtins.
Definition its_package (r : row) (w : string) : Prop := dget String.eqb (first_part (r_name r)) torch_package_mapping = Some w.

(** The helper text of the class of the row defines [w]. *)
Definition helper_defines (r : row) (w : string) : Prop :=
  exists c text, r_matcher r = Some c /\ In (c, text) helper_texts /\ In w (binds_all text).

(** Where a name of the generated code comes from. *)
Definition accounted (r : row) (q : rope) (u : bool) (w : string) : Prop :=
  everywhere w \/ its_package r w \/
  (exists p, In p q /\ sources p = [] /\ introduces w (content p)) \/
  (u = true /\ helper_defines r w).

(** The names that are not there. *)
Definition nowhere : list (string * string) :=
  [("torchvision.io.decode_jpeg", "cpu"); ("torch.index_copy", "index"); ("os.environ.get", "paddle")].
(** The names of helpers that [from paddle_utils import *] does not bring. *)
Definition not_brought : list (string * string) :=
  [("torch.nn.functional.softmin", "_get_softmin_dim"); ("torch.set_num_interop_threads", "_set_num_interop_threads");
   ("torch.set_num_threads", "_set_num_threads")].
