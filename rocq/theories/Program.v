(** The whole program: the tree of files (FileTree.v), the passes over a file (Converter.v),
    the shipped matchers (Shipped.v) and the registry of helper code (UtilsFile.v) put
    together.  Definitions only. *)
From Verif Require Import PyStr PyDict UtilsFile Ast ImportPass BasicPass Converter Shipped.
From Verif Require FileTree.

(** The libraries and options. *)
Record libraries := MkLibraries {
  matchers : tools;                                    (** printer, parser and helper texts of the matchers *)
  complete_only : bool;                                (** [only_complete] *)
  unformatted : bool;                                  (** [--no-format] *)
  sets : list string -> list string;                   (** iteration order of sets *)
  limit : nat;                                         (** recursion limit *)
  parse_file : string -> res node;                     (** [ast.parse] *)
  print_file : node -> res string;                     (** [astor.to_source] *)
  black : string -> option string;                     (** [black.format_str] *)
  isort : string -> option string;                     (** [isort.code] *)
  hash : string -> Z;                                  (** [hash] of a string *)
  probes : nat;                                        (** bound on the loop of utils.py:69-73 *)
  listing : FileTree.fs -> FileTree.path -> list string -> list string;   (** order of [os.listdir] *)
  found : string -> string -> bool                     (** [re.search] *)
}.

Section Program.
Variable L : libraries.
(** converter.py:63-86: the converter with the matchers of api_matcher.py. *)
Definition converter_setup : setup world :=
  MkSetup world (min_mode (matchers L)) (complete_only L) (unformatted L) (sets L) (limit L)
    (fun file imps => shipped_env (matchers L) imps) Shipped.cpp_extensions
    (parse_file L) (print_file L) (black L) (isort L).
(** utils.py:54-86: the code map after the registrations of a conversion.  Simplification:
    the registrations are made when the conversion ends, in their order; a registration that
    never returns (C09) counts as an empty map. *)
Definition registry (c : conv world) : dict Z string :=
  match add_all (hash L) (probes L) (MkHelper (Some "paddle_utils.py") true []) (helpers (c_shared c)) with
  | Some h => code_map h
  | None => []
  end.
(** A process starts with nothing registered (utils.py:54-67, global_var.py). *)
Definition nothing : world := MkWorld [] [] [].
(** main.py:198-217 and converter.py:92-129: one conversion in a new process.
    [cwd]: the working directory; [out]: [--out_dir]; [exclude]: [--exclude]. *)
Definition program (cwd src : FileTree.path) (out : option FileTree.path) (exclude : option string)
  : FileTree.act (conv world) :=
  FileTree.run (convert_text converter_setup) registry (listing L) (found L) (isort L) (limit L)
    cwd None src out exclude (new_converter [] nothing).
End Program.
