(** What a conversion should do to the file system. *)
From Coq Require Import Permutation.
From Verif Require Import PyStr PyDict Ast FileTree.
Open Scope list_scope.

(** [p] is the directory [d] or below it. *)
Definition inside (p d : path) : Prop := exists r, p = r ++ d.

(** The path an operation changes. *)
Definition touches (o : op) : path := match o with Mkdir p | Remove p | Write p _ => p end.

(** A directory is listed in any order. *)
Definition any_order (order : fs -> path -> list string -> list string) : Prop :=
  forall f p l, Permutation (order f p l) l.

(** [reached ex f src rel e]: the file or directory [e] at the relative path [rel] below
    [src] takes part in the conversion: no name on the way starts with a dot, no path on
    the way is excluded. *)
Inductive reached (ex : path -> bool) (f : fs) (src : path) : path -> entry -> Prop :=
| reached_top e : at_path f src = Some e -> reached ex f src [] e
| reached_in rel n e :
    reached ex f src rel Dir -> startswith n "." = false ->
    at_path f (n :: rel ++ src) = Some e -> ex (n :: rel ++ src) = false ->
    reached ex f src (n :: rel) e.

(** What [os.path.exists] answers for texts while the paths in [same] are as they were on the
    disk [f]: yes for the root and for the paths of such a disk, broken links excepted. *)
Definition looks_at (f : fs) (same : path -> Prop) (exists_path : string -> bool) : Prop := exists now : fs,
  (forall p, same p -> at_path now p = at_path f p) /\
  forall s, exists_path s = true <->
    s = "/" \/ exists p e, p <> [] /\ s = render p /\ at_path now p = Some e /\ e <> Dangling.

(** One conversion after the other: relative path, old text, new text.  [looks]: what is known
    of the answers of [os.path.exists]. *)
Inductive conversions {C} (looks : (string -> bool) -> Prop) (convert : (string -> bool) -> string -> string -> C -> res (string * C)) (src : path)
  : C -> list (path * string * string) -> C -> Prop :=
| conversions_none c : conversions looks convert src c [] c
| conversions_more exists_path rel s text c1 c2 l c3 :
    looks exists_path ->
    convert exists_path (render (rel ++ src)) s c1 = Ok (text, c2) ->
    conversions looks convert src c2 l c3 ->
    conversions looks convert src c1 ((rel, s, text) :: l) c3.

(** What may already be at the place of a file or directory of the output. *)
Definition fits (e : entry) (there : option entry) : Prop :=
  match e, there with
  | _, None => True
  | File _, Some (File _) => True
  | Dir, Some Dir => True
  | File _, _ | Dir, _ => False
  | _, _ => True
  end.
(** No path occurs twice in a file system. *)
Definition sound (f : fs) : Prop := NoDup (dkeys f).

(** The disk after some operations, the last one first. *)
Definition after (l : list op) (f : fs) : fs := fold_right perform f l.

(** Where the output goes: the second argument of a run, or ./paddle_project. *)
Definition destination (cwd : path) (out : option path) : path :=
  match out with Some p => p | None => "paddle_project"%string :: cwd end.

(** A path is excluded if one of the patterns is found in its text. *)
Definition is_excluded (search : string -> string -> bool) (exclude : option string) (p : path) : bool :=
  existsb (fun pattern => search pattern (render p)) (exclude_patterns exclude).
