(** converter.py: one file through the passes, a tree of files, the reports; and the
    project loop of main.py.  Definitions only. *)
From Coq Require Import ZArith QArith.
From Verif Require Import PyStr PyDict TextFile Requirements TablesData Lookup Ast Walk ImportPass BasicPass CustomPass.
From Verif Require Marker.
Open Scope string_scope.

(** What the converter is given: the mode, and the libraries it calls as arbitrary
    functions.  [M]: state shared by the matchers, see BasicPass.v. *)
Record setup (M : Type) := MkSetup {
  mode_min : bool;                                     (** [mode == "min"] *)
  only_complete : bool;
  no_format : bool;
  set_order : list string -> list string;              (** iteration order of sets *)
  rec_limit : nat;                                     (** Python's recursion limit *)
  basic_env : string -> ist -> benv M;                 (** the matchers, for a file and its imports *)
  cpp_extensions : M -> list string;                   (** CPP_EXTENSION_LIST, appended to by a matcher *)
  py_parse : string -> res node;                       (** [ast.parse] *)
  py_unparse : node -> res string;                     (** [astor.to_source] *)
  black_format : string -> option string;              (** [black.format_str]; [None]: exception *)
  isort_format : string -> option string               (** [isort.code]; [None]: exception *)
}.
Arguments mode_min {M}. Arguments only_complete {M}. Arguments no_format {M}. Arguments set_order {M}.
Arguments rec_limit {M}. Arguments basic_env {M}. Arguments cpp_extensions {M}. Arguments py_parse {M}.
Arguments py_unparse {M}. Arguments black_format {M}. Arguments isort_format {M}.

(** The attributes of a Converter (converter.py:63-86) and the global variables. *)
Record conv (M : Type) := MkConv {
  c_torch : Z;                                         (** torch_api_count *)
  c_success : Z;                                       (** success_api_count *)
  c_all : dict string (string * nat);                  (** all_api_map *)
  c_unsupported : dict string nat;                     (** unsupport_api_map *)
  c_imports : dict string ist;                         (** imports_map, change_prefix_api_map *)
  c_autograd : dict string (string * string);          (** AUTOGRAD_FUNC_NODES *)
  c_shared : M
}.
Arguments MkConv {M}. Arguments c_torch {M}. Arguments c_success {M}. Arguments c_all {M}.
Arguments c_unsupported {M}. Arguments c_imports {M}. Arguments c_autograd {M}. Arguments c_shared {M}.

(** converter.py:63-86 [__init__] *)
Definition new_converter {M} (autograd : dict string (string * string)) (m : M) : conv M :=
  MkConv 0 0 [] [] [] autograd m.

Section Convert.
Context {M : Type}.
Variable u : setup M.

(** base.py:33-53: a transformer starts with its own counters and the tables of the converter. *)
Definition transformer {S} (c : conv M) (s : S) : bst S := MkBst 0 0 (c_all c) (c_unsupported c) [] [] s.
(** converter.py:458-459 *)
Definition collect {S} (c : conv M) (s : bst S) : conv M :=
  MkConv (c_torch c + torch_count s) (c_success c + success_count s) (all_apis s) (unsupported s)
         (c_imports c) (c_autograd c) (c_shared c).
Definition with_import (c : conv M) (file : string) (i : ist) : conv M :=
  MkConv (c_torch c) (c_success c) (c_all c) (c_unsupported c) (dset String.eqb file i (c_imports c)) (c_autograd c) (c_shared c).
Definition with_matchers (c : conv M) (m : M) : conv M :=
  MkConv (c_torch c) (c_success c) (c_all c) (c_unsupported c) (c_imports c) (c_autograd c) m.
Definition with_nodes (c : conv M) (d : dict string (string * string)) : conv M :=
  MkConv (c_torch c) (c_success c) (c_all c) (c_unsupported c) (c_imports c) d (c_shared c).
Definition globals (c : conv M) : cst := MkCst (cpp_extensions u (c_shared c)) (c_autograd c) [] [] [].

(** converter.py:436-461 [transfer_node].  Simplification: a converter sees each file
    once (a second visit of the same path would find the old [imports_map] entries). *)
Definition transfer_node (exists_path : string -> bool) (file : string) (root : node) (c : conv M)
  : res (node * conv M) :=
  let* (root, i) := import_transform (MkEnv (mode_min u) file exists_path) (set_order u) root in
  let c := with_import c file i in
  if only_complete u then Ok (root, c)
  else
    let* (root, s) := basic_transform (basic_env u file i) (rec_limit u) root (transformer c (c_shared c)) in
    let c := with_matchers (collect c s) (shared s) in
    let* (root, s) := run_custom pre_custom_post (rec_limit u) root (transformer c (globals c)) in
    let c := with_nodes (collect c s) (autograd (shared s)) in
    let* (root, s) := run_custom custom_post (rec_limit u) root (transformer c (globals c)) in
    Ok (root, collect c s).

(** [sorted(apis, key=len, reverse=True)] (converter.py:464) *)
Fixpoint by_length (l : list string) : list string :=
  match l with
  | [] => []
  | x :: r =>
      (fix put (l : list string) : list string :=
         match l with
         | [] => [x]
         | y :: r => if (String.length y <=? String.length x)%nat then x :: y :: r else y :: put r
         end) (by_length r)
  end.

Definition or_same (f : string -> option string) (s : string) : string :=
  match f s with Some t => t | None => s end.
(** converter.py:369-413 *)
Definition convert_python (exists_path : string -> bool) (file : string) (code : string) (c : conv M) : res (string * conv M) :=
  let* root := py_parse u code in
  let* (root, c) := transfer_node exists_path file root c in
  let* code := py_unparse u root in
  let code := if no_format u then code else or_same (isort_format u) (or_same (black_format u) code) in
  if only_complete u then Ok (code, c)
  else
    let i := match dget String.eqb file (c_imports c) with Some i => i | None => ist0 end in
    match Marker.mark_unsupport (mode_min u) (torch_packages i) (by_length (kept_apis i)) code with
    | Some code => Ok (code, c)
    | None => Raise "IndexError"
    end.
(** converter.py:364-434 [transfer_file], without the file system: the text written for a
    file with the given bytes.  Copied files are not decoded. *)
Definition convert_text (exists_path : string -> bool) (file : string) (bytes : string) (c : conv M) : res (string * conv M) :=
  if endswith file ".py" then let* code := read_text bytes in convert_python exists_path file code c
  else if endswith file "requirements.txt" then let* code := read_text bytes in Ok (convert_requirements code, c)
  else Ok (bytes, c).

(** A project without its directories: files with their syntax trees, in the order of
    conversion. *)
Fixpoint convert_nodes (exists_path : string -> bool) (l : list (string * node)) (c : conv M) : res (list node * conv M) :=
  match l with
  | [] => Ok ([], c)
  | (file, root) :: r =>
      let* (root, c) := transfer_node exists_path file root c in
      let* (rest, c) := convert_nodes exists_path r c in
      Ok (root :: rest, c)
  end.
End Convert.

(** ** Reports *)

(** converter.py:226, 304: the pair returned by [run]. *)
Definition returned {M} (c : conv M) : Z * Z := (c_success c, c_torch c - c_success c)%Z.
(** converter.py:82, 249-250: [convert_rate].  Simplification: exact instead of floating
    point division. *)
Definition convert_rate {M} (c : conv M) : Q :=
  if (0 <? c_torch c)%Z then (c_success c # Z.to_pos (c_torch c)) else 0.

(** [d.pop(k)]: KeyError if absent. *)
Definition pop {V} (k : string) (d : dict string V) : res (dict string V) :=
  if dmem String.eqb k d then Ok (ddel String.eqb k d) else Raise "KeyError".
(** converter.py:165-170: the table of the unaligned APIs.  [change_prefix]: the names in
    GlobalManager.CHANGE_PREFIX_API. *)
Definition unaligned {V} (change_prefix : list string) (all : dict string V) : res (dict string V) :=
  fold_left (fun d kv =>
    let* d := d in
    let* d := if startswith (fst kv) "torch." then Ok d else pop (fst kv) d in
    if mem_str (fst kv) change_prefix then pop (fst kv) d else Ok d) all (Ok all).

(** global_var.py:75-82 CHANGE_PREFIX_API *)
Definition change_prefix_apis : list string :=
  map r_name (filter (fun r => is_prefix_matcher (r_matcher r)) (api_mapping ++ attribute_mapping)%list).

(** ** main.py *)

(** main.py:137-140: [--exclude_packages] *)
Definition exclude_packages {V} (arg : string) (mapping : dict string V) : res (dict string V) :=
  fold_left (fun d p => let* d := d in pop p d) (split_on ","%char arg) (Ok mapping).

(** main.py:142-171: counts for separate conversion, from the rates of the projects. *)
Record summary := MkSummary { at_100 : nat; at_95 : nat; at_90 : nat; rate_map : dict string Q }.
Definition count_project (s : summary) (p : string * Q) : summary :=
  let r := snd p in
  MkSummary (at_100 s + (if Qeq_bool r 1 then 1 else 0))
            (at_95 s + (if Qle_bool (95 # 100) r then 1 else 0))
            (at_90 s + (if Qle_bool (90 # 100) r then 1 else 0))
            (dset String.eqb (fst p) r (rate_map s)).
Definition summarise (l : list (string * Q)) : summary := fold_left count_project l (MkSummary 0 0 0 []).
