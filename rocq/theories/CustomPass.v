(** The two passes for C++ extensions, custom_op_transformer.py.  Definitions only. *)
From Coq Require Import ZArith.
From Verif Require Import PyStr PyDict Ast Walk ImportPass BasicPass.

(** The global variables of the module and the attributes of the two transformers. *)
Record cst := MkCst {
  extensions : list string;                       (** CPP_EXTENSION_LIST *)
  autograd : dict string (string * string);       (** AUTOGRAD_FUNC_NODES: class node -> (its name, extension) *)
  ext_imports : dict string string;               (** cpp_ext_import_names *)
  ext_loads : list string;                        (** cpp_ext_load_names *)
  func_imports : dict string string               (** autograd_func_import_names *)
}.
Definition with_autograd (c : cst) (d : dict string (string * string)) : cst :=
  MkCst (extensions c) d (ext_imports c) (ext_loads c) (func_imports c).

(** AUTOGRAD_FUNC_NODES is keyed by node objects and survives the rewriting of the tree, so
    here a class definition carries the identity of its object in a field of its own. *)
Definition object_id (n : node) : string :=
  match n with
  | Other _ fs => match find (fun f => String.eqb (field_name f) "@id") fs with Some (Data _ x) => x | _ => "" end
  | _ => ""
  end.
Definition data_of (nm : string) (n : node) : string :=
  match n with
  | Other _ fs => match find (fun f => String.eqb (field_name f) nm) fs with Some (Data _ x) => x | _ => "" end
  | _ => ""
  end.
Definition list_of (nm : string) (n : node) : list node :=
  match n with
  | Other _ fs => match find (fun f => String.eqb (field_name f) nm) fs with Some (Many _ l) => l | _ => [] end
  | _ => []
  end.
Definition bst_c := bst cst.
Definition with_custom (s : bst_c) (c : cst) : bst_c := with_shared s c.

(** base.py:275-326: the scope visitors; visit_Attribute does not look below. *)
Definition custom_pre (n : node) (stack : list frame) (s : bst_c) : res (bool * bst_c) :=
  Ok (match n with Attribute _ _ => false | _ => true end,
      if mem_str (kind_of n) scope_kinds then with_scopes s (map e_pos stack :: scopes s) else s).
Definition custom_again (n : node) (stack : list frame) (s : bst_c) : bool := false.
Definition close_scope (n : node) (stack : list frame) (s : bst_c) : res (reply * bst_c) :=
  if mem_str (kind_of n) scope_kinds then
    Ok (Reply (VNode (insert_recorded (map e_pos stack) (records s) n)), with_scopes s (tl (scopes s)))
  else Ok (Reply (VNode n), s).

(** ** PreCustomOpTransformer (custom_op_transformer.py:24-142) *)

(** custom_op_transformer.py:47-76 [visit_Import] *)
Fixpoint split_imports (l : list alias) (c : cst) : list alias * cst :=
  match l with
  | [] => ([], c)
  | a :: r =>
      if mem_str (al_name a) (extensions c) then
        split_imports r (MkCst (extensions c) (autograd c) (dset String.eqb (bound_name a) (al_name a) (ext_imports c))
                               (ext_loads c) (func_imports c))
      else let (rest, c') := split_imports r c in (a :: rest, c')
  end.

(** custom_op_transformer.py:88-111, 115-140: every enclosing class derived from paddle.autograd.PyLayer (once per
    such base) is counted and remembered with the extension. *)
Definition uses_in_classes (ext : string) (stack : list frame) (s : bst_c) : bst_c :=
  fold_left (fun s f =>
    if String.eqb (kind_of (e_node f)) "ClassDef" then
      fold_left (fun s base =>
        if String.eqb (get_full_attr base) "paddle.autograd.PyLayer" then
          MkBst (torch_count s + 1) (success_count s + 1) (all_apis s) (unsupported s) (scopes s) (records s)
                (with_autograd (shared s) (dset String.eqb (object_id (e_node f)) (data_of "name" (e_node f), ext) (autograd (shared s))))
        else s) (list_of "bases" (e_node f)) s
    else s) stack s.

(** custom_op_transformer.py:47-142: what the visitor methods do after looking below. *)
Definition pre_custom_post (n : node) (stack : list frame) (s : bst_c) : res (reply * bst_c) :=
  match n with
  | Import names =>
      let (kept, c) := split_imports names (shared s) in
      Ok (Reply (match kept with [] => VNone | _ => VNode (Import kept) end), with_custom s c)
  | Attribute (Name i) _ =>
      let s := fold_left (fun s kv => if String.eqb (fst kv) i then uses_in_classes (snd kv) stack s else s)
                         (ext_imports (shared s)) s in
      let s := fold_left (fun s x => if String.eqb x i then uses_in_classes ("load_" ++ x) stack s else s)
                         (ext_loads (shared s)) s in
      Ok (Reply (VNode n), s)
  | Other "Assign" fs =>
      match field_child fs (At "value" 0) with
      | Some (Call f _ _) =>
          if String.eqb (get_full_attr f) "paddle.utils.cpp_extension.load" then
            match field_child fs (At "targets" 0) with
            | Some (Name t) =>
                let c := shared s in
                Ok (Reply (VNode n), with_custom s (MkCst (extensions c) (autograd c) (ext_imports c) (ext_loads c ++ [t]) (func_imports c)))
            | _ => Raise "AttributeError"
            end
          else Ok (Reply (VNode n), s)
      | _ => Ok (Reply (VNode n), s)
      end
  | _ => close_scope n stack s
  end.

(** ** CustomOpTransformer (custom_op_transformer.py:145-253) *)

(** custom_op_transformer.py:186, 236 [cpp_ext.lstrip("load_")]: strips characters, not the prefix. *)
Definition strip_load (ext : string) : string :=
  lstrip_by (fun c => existsb (Ascii.eqb c) (list_ascii_of_string "load_")) ext.

(** custom_op_transformer.py:172-195: the inner loop, for one imported name; the name may change on the way. *)
Definition match_alias (asname : option string) (l : dict string (string * string)) (name : string) (d : dict string string)
  : string * list string * dict string string :=
  fold_left (fun '(name, ext_names, d) kv =>
    let '(cls, ext) := snd kv in
    if String.eqb cls name then
      let d := dset String.eqb (match asname with Some n => n | None => name end) ext d in
      if startswith ext "load_" then (strip_load ext, ext_names, d) else (name, (ext_names ++ [ext])%list, d)
    else (name, ext_names, d)) l (name, [], d).
(** custom_op_transformer.py:167-198: the names kept and the extensions imported. *)
Fixpoint custom_from (l : list alias) (c : cst) : list alias * list string * cst :=
  match l with
  | [] => ([], [], c)
  | a :: r =>
      let '(name, found, d) := match_alias (al_asname a) (autograd c) (al_name a) (func_imports c) in
      let '(kept, more, c') := custom_from r (MkCst (extensions c) (autograd c) (ext_imports c) (ext_loads c) d) in
      (match found with [] => MkAlias name (al_asname a) :: kept | _ => kept end, (found ++ more)%list, c')
  end.

(** custom_op_transformer.py:247-249 *)
Definition cpp_annotation : node :=
  Other "Expr" [One "value" (Other "Constant" [Data "value"
    "'C++ Custom OP: only convert Python Code, Not Support auto convert C++ Code, please convert it by yourself'"])].
(** [ast.parse(s).body[0]]: a statement; nothing there for an empty text. *)
Definition parse_stmt (s : string) : res node :=
  if String.eqb s "" then Raise "IndexError" else Ok (Other "Expr" [One "value" (parse_dotted s)]).

(** custom_op_transformer.py:223-253 [visit_Attribute]: the first remembered function the attribute calls. *)
Definition custom_attribute (n : node) (stack : list frame) (s : bst_c) : res (reply * bst_c) :=
  match find (fun kv => String.eqb (fst kv ++ ".apply") (get_full_attr n)) (func_imports (shared s)) with
  | None => Ok (Reply (VNode n), s)
  | Some (name, ext) =>
      let* new := parse_stmt (if startswith ext "load_" then strip_load ext else ext ++ ".custom_op_xxx") in
      let s := unsupport (name ++ ".apply")
                 (MkBst (torch_count s + 1) (success_count s) (all_apis s) (unsupported s) (scopes s) (records s) (shared s)) in
      let* at_ := scope_body_index stack (scopes s) in
      Ok (Reply (VNode new), record at_ [cpp_annotation] s)
  end.

(** custom_op_transformer.py:167-253 ([visit_ClassDef]: 210-221). *)
Definition custom_post (n : node) (stack : list frame) (s : bst_c) : res (reply * bst_c) :=
  match n with
  | ImportFrom m names level =>
      let '(kept, found, c) := custom_from names (shared s) in
      let s := record (root_path, "body", 0)
                 (match found with [] => [] | _ => [Import (map (fun x => MkAlias x None) found)] end) (with_custom s c) in
      Ok (Reply (match kept with [] => VNone | _ => VNode (ImportFrom m kept level) end), s)
  | Attribute _ _ => custom_attribute n stack s
  | Other "ClassDef" _ =>
      Ok (Reply (if dmem String.eqb (object_id n) (autograd (shared s)) then VNone else VNode n), s)
  | _ => close_scope n stack s
  end.

(** base.py:55-57 *)
Definition run_custom (post : node -> list frame -> bst_c -> res (reply * bst_c)) (limit : nat) (root : node) (s : bst_c)
  : res (node * bst_c) :=
  let* (r, (_, s)) := walk custom_pre custom_again post limit root (At "" 0) ([], s) in
  match r with
  | Reply (VNode n) => Ok (n, s)
  | _ => Raise "root deleted"
  end.
