(** main.py: what the command does with its arguments.  Definitions only. *)
From Verif Require Import PyStr PyDict Ast BasicPass Converter Shipped Program.
From Verif Require FileTree.

(** main.py:36-133: the arguments after [argparse].  Not here: the options of the log, and
    [--exclude_packages] (C85). *)
Record options := MkOptions {
  in_dir : option FileTree.path;
  out_dir : option FileTree.path;
  exclude : option string;
  mode_is_min : bool;                                  (** [--mode min] *)
  no_format_flag : bool;                               (** [--no_format] *)
  only_complete_flag : bool;                           (** [--only_complete] *)
  run_check : bool;
  separate_convert : bool
}.

(** main.py:135-137, 181-192: the converter for these arguments; [--mode min] switches the
    formatting off. *)
Definition configured (L : libraries) (o : options) : libraries :=
  let t := matchers L in
  MkLibraries (MkTools (print t) (parse t) (helper_code t) (helper_imports t) (mode_is_min o))
    (only_complete_flag o) (if mode_is_min o && negb (no_format_flag o) then true else no_format_flag o)
    (sets L) (limit L) (parse_file L) (print_file L) (black L) (isort L) (hash L) (probes L) (listing L) (found L).

(** converter.py:113-126, utils.py:54-67: the file the helper registry is created with, if
    the disk is [f] when the conversion starts. *)
Definition registry_file (f : FileTree.fs) (cwd src : FileTree.path) (out : option FileTree.path) : option (FileTree.path * bool) :=
  let dst := match out with Some p => p | None => FileTree.join_path cwd "paddle_project" end in
  let dst_is_dir := FileTree.isdir f dst || match out with None => negb (FileTree.exists_at f dst) | Some _ => false end in
  if FileTree.isfile f src then Some (if dst_is_dir then FileTree.join_path dst (FileTree.basename src) else dst, false)
  else if FileTree.isdir f src then Some (FileTree.join_path dst "paddle_utils.py", true)
  else None.

(** What a process keeps between two converters: the file of the registry (utils.py:54-67),
    the global tables of the matchers and of the pass for C++ extensions. *)
Record process := MkProcess {
  own_file : option (FileTree.path * bool);
  tables : world;
  classes_of_extensions : dict string (string * string)
}.
Definition new_process : process := MkProcess None nothing [].

Section Command.
Variable L : libraries.
Variable cwd : FileTree.path.
(** converter.py:92-129: a conversion in a process that may have converted before.  The code
    map is empty afterwards (utils.py:186). *)
Definition convert_in (p : process) (src : FileTree.path) (out : option FileTree.path) (ex : option string)
  : FileTree.act (conv world * process) :=
  FileTree.see (fun f =>
    let start := MkWorld (name_counters (tables p)) [] (Shipped.cpp_extensions (tables p)) in
    FileTree.bind
      (FileTree.run (convert_text (converter_setup L)) (registry L) (listing L) (found L) (isort L) (limit L)
         cwd (own_file p) src out ex (new_converter (classes_of_extensions p) start))
      (fun c => FileTree.ret (c, MkProcess (match own_file p with Some h => Some h | None => registry_file f cwd src out end)
                                   (c_shared c) (c_autograd c)))).
(** main.py:145-171: [os.listdir], hidden names too; the projects one after the other, all
    with the same [--out_dir]. *)
Fixpoint each_project (o : options) (base : FileTree.path) (projects : list string) (p : process) : FileTree.act (list (string * conv world)) :=
  match projects with
  | [] => FileTree.ret []
  | n :: r =>
      FileTree.bind (convert_in p (FileTree.join_path base n) (out_dir o) (exclude o)) (fun cp =>
      FileTree.bind (each_project o base r (snd cp)) (fun rest =>
      FileTree.ret ((n, fst cp) :: rest)))
  end.
End Command.

(** main.py:144-217, without the printed summary.  [package]: the directory of main.py.  The result: the converters that
    were run, under the names of their projects. *)
Definition command (L : libraries) (cwd package : FileTree.path) (o : options) : FileTree.act (list (string * conv world)) :=
  let L := configured L o in
  if separate_convert o then
    match in_dir o with
    | None => FileTree.fail "TypeError"
    | Some base =>
        FileTree.see (fun f =>
          if FileTree.isdir f base then each_project L cwd o base (listing L f base (FileTree.names f base)) new_process
          else FileTree.fail (if FileTree.exists_at f base then "NotADirectoryError" else "FileNotFoundError"))
    end
  else if run_check o then
    FileTree.bind (program L cwd (FileTree.join_path package "example_code.py")
      (Some (FileTree.join_path (FileTree.join_path package "temp_out") "example_code.py")) None) (fun c => FileTree.ret [("", c)])
  else
    match in_dir o with
    | None => FileTree.fail "AssertionError"
    | Some src => FileTree.bind (program L cwd src (out_dir o) (exclude o)) (fun c => FileTree.ret [("", c)])
    end.
