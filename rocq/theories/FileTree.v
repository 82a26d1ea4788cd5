(** converter.py: the file-system side of a conversion ([run], [transfer_dir],
    [transfer_file]) and of utils.py ([write_code]).  Definitions only.

    Simplifications: paths are absolute and normalised; symbolic links to existing files
    are not modelled (their target stands in their place), only dangling ones are;
    permissions, disk space and concurrent changes by other programs are not modelled. *)
From Verif Require Import PyStr PyDict Ast UtilsFile.
Open Scope string_scope.

(** A path: its components, the last one first; [[]] is the root directory. *)
Definition path := list string.
Fixpoint path_eqb (a b : path) : bool :=
  match a, b with
  | [], [] => true
  | x :: a, y :: b => String.eqb x y && path_eqb a b
  | _, _ => false
  end.
(** [os.path.join(p, n)] *)
Definition join_path (p : path) (n : string) : path := n :: p.
(** [os.path.dirname], [os.path.basename] *)
Definition dirname (p : path) : path := tl p.
Definition basename (p : path) : string := hd "" p.
(** The text of a path. *)
Definition render (p : path) : string := String.concat "" (map (fun n => "/" ++ n) (rev p)).

Inductive entry :=
| File (content : string)
| Dir
| Dangling            (** symbolic link without target *)
| Special.            (** device, socket, pipe *)
Definition fs := dict path entry.
Definition at_path (f : fs) (p : path) : option entry :=
  match p with [] => Some Dir | _ => dget path_eqb p f end.

(** [os.path.isfile], [os.path.isdir], [os.path.exists]: follow links. *)
Definition isfile (f : fs) (p : path) : bool := match at_path f p with Some (File _) => true | _ => false end.
Definition isdir (f : fs) (p : path) : bool := match at_path f p with Some Dir => true | _ => false end.
Definition exists_at (f : fs) (p : path) : bool :=
  match at_path f p with None | Some Dangling => false | Some _ => true end.
(** [os.path.exists] on a text. *)
Definition exists_text (f : fs) (s : string) : bool :=
  String.eqb s "/" || (negb (String.eqb s "") && existsb (fun p => String.eqb (render p) s && exists_at f p) (dkeys f)).
(** The names in a directory, in no particular order. *)
Definition names (f : fs) (p : path) : list string :=
  flat_map (fun q => match q with n :: d => if path_eqb d p then [n] else [] | [] => [] end) (dkeys f).

(** What a conversion does to the disk. *)
Inductive op := Mkdir (p : path) | Remove (p : path) | Write (p : path) (content : string).
Definition perform (o : op) (f : fs) : fs :=
  match o with
  | Mkdir p => dset path_eqb p Dir f
  | Remove p => ddel path_eqb p f
  | Write p s => dset path_eqb p (File s) f
  end.

(** The disk and the operations so far, the last one first. *)
Record world := MkWorld { disk : fs; past : list op }.
Definition act (A : Type) := world -> world * res A.
Definition ret {A} (a : A) : act A := fun w => (w, Ok a).
Definition fail {A} (e : string) : act A := fun w => (w, Raise e).
Definition bind {A B} (x : act A) (k : A -> act B) : act B := fun w =>
  match x w with
  | (w, Ok a) => k a w
  | (w, Raise e) => (w, Raise e)
  end.
Notation "'do*' x := a 'in' b" := (bind a (fun x => b)) (at level 200, x name, a at level 100, b at level 200).
Definition see {A} (k : fs -> act A) : act A := fun w => k (disk w) w.
Definition doing (o : op) : act unit := fun w => (MkWorld (perform o (disk w)) (o :: past w), Ok tt).

(** [os.mkdir] *)
Definition mkdir (p : path) : act unit := see (fun f =>
  match at_path f p with
  | Some _ => fail "FileExistsError"
  | None => if isdir f (dirname p) then doing (Mkdir p) else fail "NotADirectoryError"
  end).
(** [os.makedirs]: the missing parents first. *)
Fixpoint makedirs (p : path) : act unit :=
  match p with
  | [] => fail "FileExistsError"
  | n :: d => do* _ := see (fun f => if exists_at f d then ret tt else makedirs d) in mkdir p
  end.
(** [os.makedirs(p, exist_ok=True)] *)
Definition makedirs_ok (p : path) : act unit := see (fun f => if isdir f p then ret tt else makedirs p).
(** [os.remove] *)
Definition remove (p : path) : act unit := see (fun f =>
  match at_path f p with
  | None => fail "FileNotFoundError"
  | Some Dir => fail "IsADirectoryError"
  | Some _ => doing (Remove p)
  end).
(** [open(p, "w")] and one [write].  Simplification: writing through a dangling link or to a
    device is an exception. *)
Definition write_file (p : path) (s : string) : act unit := see (fun f =>
  match at_path f p with
  | Some Dir => fail "IsADirectoryError"
  | Some Dangling | Some Special => fail "OSError"
  | _ => if isdir f (dirname p) then doing (Write p s) else fail "FileNotFoundError"
  end).

(** [for n in l] with a state. *)
Fixpoint for_each {C} (step : string -> C -> act C) (l : list string) (c : C) : act C :=
  match l with
  | [] => ret c
  | n :: l => do* c := step n c in for_each step l c
  end.

(** converter.py:43-46 [listdir_nohidden] *)
Definition hidden (n : string) : bool := startswith n ".".

Section Run.
Context {C : Type}.                                    (** state of the converter *)
(** converter.py:364-434, the text for a file: existing paths, the file, its content. *)
Variable convert : (string -> bool) -> string -> string -> C -> res (string * C).
Variable codes_of : C -> dict Z string.                (** code_map of the helper registry *)
Variable order : fs -> path -> list string -> list string.   (** order of [os.listdir] *)
Variable search : string -> string -> bool.            (** [re.search(pattern, text)] *)
Variable isort : string -> option string.

(** converter.py:325-327, 346-349.  Simplification: every pattern is a valid regular
    expression. *)
Definition excluded (patterns : list string) (p : path) : bool :=
  existsb (fun r => search r (render p)) patterns.
(** converter.py:107-111: [exclude.split(",")] and "__pycache__". *)
Definition exclude_patterns (exclude : option string) : list string :=
  (match exclude with
   | None | Some "" => []
   | Some s => split_on "," s
   end ++ ["__pycache__"])%list.

(** converter.py:364-434 [transfer_file]: the text is computed before the new file is
    opened.  [shutil.copyfile] refuses to copy a file to itself. *)
Definition transfer_file (old new : path) (c : C) : act C := see (fun f =>
  match at_path f old with
  | Some (File s) =>
      match convert (exists_text f) (render old) s c with
      | Raise e => fail e
      | Ok (text, c) =>
          if path_eqb old new && negb (endswith (render old) ".py") && negb (endswith (render old) "requirements.txt")
          then fail "SameFileError"
          else do* _ := write_file new text in ret c
      end
  | _ => fail "FileNotFoundError"
  end).

(** converter.py:333-338: the directory of the new file. *)
Definition prepare (p : path) : act unit :=
  do* _ := see (fun f => if exists_at f p then ret tt else makedirs p) in
  see (fun f => if isdir f p then ret tt else do* _ := remove p in makedirs p).

(** converter.py:321-362 [transfer_dir]; [fuel]: Python's recursion limit.  The names of a
    directory are read before its loop starts. *)
Fixpoint transfer_dir (fuel : nat) (patterns : list string) (src dst : path) (c : C) : act C :=
  match fuel with
  | O => fail "RecursionError"
  | S fuel => see (fun f =>
      match at_path f src with
      | Some (File _) =>
          if excluded patterns src then ret c
          else
            let new := if isdir f dst then join_path dst (basename src) else dst in
            do* _ := prepare (dirname new) in
            transfer_file src new c
      | Some Dir =>
          for_each (fun n c =>
            let old := join_path src n in
            let new := join_path dst n in
            if excluded patterns old then ret c
            else
              do* _ := see (fun f => if isdir f old && negb (exists_at f new) then makedirs new else ret tt) in
              transfer_dir fuel patterns old new c)
            (filter (fun n => negb (hidden n)) (order f src (names f src))) c
      | Some Dangling => ret c
      | _ => fail "ValueError"
      end)
  end.

(** utils.py:134-186 [write_code] with its files. *)
Definition flush (file : path) (dirm : bool) (c : C) : act unit :=
  let h := MkHelper (Some (render file)) dirm (codes_of c) in
  match codes_of c with
  | [] => ret tt
  | _ =>
      do* _ := (if dirm then makedirs_ok (dirname file) else ret tt) in
      see (fun f =>
        match write_code isort h (match at_path f file with Some (File s) => Some s | _ => None end) with
        | NoWrite => ret tt
        | Written text _ => write_file file text
        | WriteCrash => fail "Error"
        end)
  end.

(** converter.py:92-129 [run] up to the reports.  [earlier]: the helper registry left by an
    earlier conversion of the same process, which keeps its file and mode (utils.py:54-67). *)
Definition run (fuel : nat) (cwd : path) (earlier : option (path * bool))
    (src : path) (out : option path) (exclude : option string) (c : C) : act C :=
  let dst := match out with Some p => p | None => join_path cwd "paddle_project" end in
  do* _ := (match out with
            | Some _ => ret tt
            | None => see (fun f => if exists_at f dst then ret tt else makedirs dst)
            end) in
  if path_eqb dst src then fail "AssertionError"
  else
    see (fun f =>
      let own :=
        if isfile f src then Some (if isdir f dst then join_path dst (basename src) else dst, false)
        else if isdir f src then Some (join_path dst "paddle_utils.py", true)
        else None in
      do* c := transfer_dir fuel (exclude_patterns exclude) src dst c in
      match own with
      | None => fail "UnboundLocalError"
      | Some own =>
          let (file, dirm) := match earlier with Some h => h | None => own end in
          do* _ := flush file dirm c in
          ret c
      end).
End Run.
