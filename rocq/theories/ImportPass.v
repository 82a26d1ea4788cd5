(** The first pass over a file: import_transformer.py.  Definitions only. *)
From Verif Require Import PyStr PyDict Args TablesData Lookup Ast.

(** What the pass is given: [mode == "min"], the path of the file, [os.path.exists]. *)
Record env := MkEnv { min_mode : bool; file : string; exists_path : string -> bool }.

(** [os.path.dirname] *)
Definition slash : ascii := "/"%char.
Definition dirname (p : string) : string :=
  match rsplit1 slash p with
  | None => ""
  | Some (head, _) =>
      if forallb (Ascii.eqb slash) (list_ascii_of_string head) then head ++ "/"
      else rstrip_by (Ascii.eqb slash) head
  end.
(** [os.path.join(a, b)] *)
Definition path_join (a b : string) : string :=
  if startswith b "/" then b
  else if String.eqb a "" || endswith a "/" then a ++ b
  else a ++ "/" ++ b.

(** import_transformer.py:66-68, 239-241: does the module exist in the user's project? *)
Definition is_local (e : env) (module : string) : bool :=
  let path := path_join (dirname (file e)) (py_replace module "." "/") in
  exists_path e path || exists_path e (path ++ ".py").

(** [imports_map[file]] and the other attributes of the transformer.  The dictionary
    holds, besides the names bound by torch imports ([imports]), four bookkeeping
    entries; sets are lists without duplicates. *)
Record ist := MkIst {
  imports : dict string string;
  other_packages : list string;
  torch_packages : list string;
  may_packages : list string;
  name_aliases : dict string string;   (** "api_alias_name_map" *)
  pass_parents : list (list pos);     (** [insert_pass_node]: nodes, identified by path *)
  kept_apis : list string             (** [change_prefix_api_map[file]] *)
}.
Definition bookkeeping : list string :=
  ["other_packages"; "torch_packages"; "may_torch_packages"; "api_alias_name_map"].

Definition set_add (x : string) (l : list string) : list string :=
  if mem_str x l then l else (l ++ [x])%list.

Definition with_imports (s : ist) (d : dict string string) : ist :=
  MkIst d (other_packages s) (torch_packages s) (may_packages s) (name_aliases s) (pass_parents s) (kept_apis s).
Definition with_other (s : ist) (x : string) : ist :=
  MkIst (imports s) (set_add x (other_packages s)) (torch_packages s) (may_packages s) (name_aliases s) (pass_parents s) (kept_apis s).
Definition with_torch (s : ist) (x : string) : ist :=
  MkIst (imports s) (other_packages s) (set_add x (torch_packages s)) (may_packages s) (name_aliases s) (pass_parents s) (kept_apis s).
Definition with_may (s : ist) (x : string) : ist :=
  MkIst (imports s) (other_packages s) (torch_packages s) (set_add x (may_packages s)) (name_aliases s) (pass_parents s) (kept_apis s).
Definition with_alias (s : ist) (k v : string) : ist :=
  MkIst (imports s) (other_packages s) (torch_packages s) (may_packages s) (dset String.eqb k v (name_aliases s)) (pass_parents s) (kept_apis s).
Definition with_pass (s : ist) (p : list pos) : ist :=
  MkIst (imports s) (other_packages s) (torch_packages s) (may_packages s) (name_aliases s) (p :: pass_parents s) (kept_apis s).
Definition with_kept (s : ist) (x : string) : ist :=
  MkIst (imports s) (other_packages s) (torch_packages s) (may_packages s) (name_aliases s) (pass_parents s) (set_add x (kept_apis s)).

(** import_transformer.py:42-47 *)
Definition ist0 : ist := MkIst [] [] [] [] [] [] [].

(** [self.imports_map[self.file][key] = value].  Simplification: overwriting one of the
    four bookkeeping entries is an immediate exception; the program fails later, at the
    next use of the overwritten entry. *)
Definition record_import (k v : string) (s : ist) : res ist :=
  if mem_str k bookkeeping then Raise "bookkeeping entry overwritten"
  else Ok (with_imports s (dset String.eqb k v (imports s))).

(** [name.startswith(f"{pkg}.") or pkg == name] *)
Definition in_package (pkg name : string) : bool :=
  startswith name (pkg ++ ".") || String.eqb pkg name.
(** The first listed package the module belongs to (import_transformer.py:75-81, 247-251). *)
Definition listed_packages : list string := (dkeys torch_package_mapping ++ may_torch_package_list)%list.
Definition torch_package_of (module : string) : option string :=
  find (fun p => in_package p module) listed_packages.
(** import_transformer.py:82-85, 252-255 *)
Definition note_package (pkg : string) (s : ist) : ist :=
  if mem_str pkg may_torch_package_list then with_may s pkg else with_torch s pkg.
(** [f"{pkg}." in name or pkg == name] (import_transformer.py:118-119, 305-306) *)
Definition renamed_package_of (module : string) : option (string * string) :=
  find (fun kv => contains (fst kv ++ ".") module || String.eqb (fst kv) module) import_package_mapping.

(** The name an import binds. *)
Definition bound_name (a : alias) : string :=
  match al_asname a with Some n => n | None => al_name a end.

(** import_transformer.py:62-160: the loop of [visit_Import]; [break] on a local module. *)
Fixpoint import_names (e : env) (l : list alias) (s : ist) : res (list alias * ist) :=
  match l with
  | [] => Ok ([], s)
  | a :: r =>
      if is_local e (al_name a) then Ok ([a], with_other s (bound_name a))
      else
        match torch_package_of (al_name a) with
        | Some pkg =>
            let* s := record_import (bound_name a) (al_name a) (note_package pkg s) in
            let* (rest, s) := import_names e r s in
            Ok (if min_mode e then a :: rest else rest, s)
        | None =>
            match renamed_package_of (al_name a) with
            | Some (pkg, target) =>
                let a' := match al_asname a with
                          | Some n => MkAlias (py_replace (al_name a) pkg target) (Some n)
                          | None => MkAlias target (Some pkg)
                          end in
                let* (rest, s) := import_names e r s in
                Ok (a' :: rest, s)
            | None =>
                let* (rest, s) := import_names e r (with_other s (bound_name a)) in
                Ok (a :: rest, s)
            end
        end
  end.

(** [self.parent_node] (base.py:65-67): [node_stack[-2]], or an IndexError. *)
Definition parent (stack : list frame) : res node :=
  match stack with _ :: f :: _ => Ok (e_node f) | _ => Raise "IndexError" end.
Definition parent_path (stack : list frame) : list pos := map e_pos (tl stack).
Definition pos_eqb (a b : pos) : bool :=
  String.eqb (p_field a) (p_field b) && Nat.eqb (p_index a) (p_index b).
Fixpoint path_eqb (a b : list pos) : bool :=
  match a, b with
  | [], [] => true
  | x :: a', y :: b' => pos_eqb x y && path_eqb a' b'
  | _, _ => false
  end.

Definition pass_node : node := Other "Pass" [].

(** import_transformer.py:165-190, 281-303: a removed import is replaced by [pass] for
    the first removal directly below an If or Try. *)
Definition remove_import (stack : list frame) (s : ist) : res (visited * ist) :=
  let* p := parent stack in
  if mem_str (kind_of p) ["If"; "Try"]
     && negb (existsb (path_eqb (parent_path stack)) (pass_parents s))
  then Ok (VNode pass_node, with_pass s (parent_path stack))
  else Ok (VNone, s).

(** import_transformer.py:50-190 *)
Definition visit_import (e : env) (names : list alias) (stack : list frame) (s : ist) : res (visited * ist) :=
  let* (names', s) := import_names e names s in
  match names' with
  | [] => remove_import stack s
  | _ => Ok (VNode (Import names'), s)
  end.

(** import_transformer.py:322-337 [insert_other_packages] for an ImportFrom node. *)
Definition note_others (l : list alias) (s : ist) : ist :=
  fold_left (fun s a =>
    match al_asname a with
    | Some n => with_other s n
    | None => if String.eqb (al_name a) "*" then s else with_other s (al_name a)
    end) l s.

(** import_transformer.py:256-279: record every imported name. *)
Fixpoint record_from (module : string) (l : list alias) (s : ist) : res ist :=
  match l with
  | [] => Ok s
  | a :: r =>
      let* s := record_import (bound_name a) (module ++ "." ++ al_name a) s in
      record_from module r s
  end.

(** import_transformer.py:201-245: the module of the import as the rest of the method
    sees it; [inl] is an early [return node]. *)
Definition from_module (e : env) (module : option string) (level : nat) : res (option (string * nat)) :=
  match level with
  | O =>
      match module with
      | None => Raise "AttributeError"
      | Some m => if is_local e m then Ok None else Ok (Some (m, O))
      end
  | _ =>
      if contains "huggingface_internal" (file e) && ((level =? 2)%nat || (level =? 3)%nat) then
        let prefix :=
          if contains "pipeline_" (file e) then
            if (level =? 3)%nat then "diffusers" else "diffusers.pipelines"
          else
            if (level =? 3)%nat then "transformers" else "transformers.models" in
        Ok (Some (match module with
                  | Some m => if String.eqb m "" then prefix else prefix ++ "." ++ m
                  | None => prefix
                  end, O))
      else Ok None
  end.

(** import_transformer.py:192-320 *)
Definition visit_import_from (e : env) (module : option string) (names : list alias) (level : nat)
  (stack : list frame) (s : ist) : res (visited * ist) :=
  let* m := from_module e module level in
  match m with
  | None => Ok (VNode (ImportFrom module names level), note_others names s)
  | Some (m, level) =>
      match torch_package_of m with
      | Some pkg =>
          let* s := record_from m names (note_package pkg s) in
          if min_mode e then Ok (VNode (ImportFrom (Some m) names level), s)
          else remove_import stack s
      | None =>
          match renamed_package_of m with
          | Some (pkg, target) => Ok (VNode (ImportFrom (Some (py_replace m pkg target)) names level), s)
          | None => Ok (VNode (ImportFrom (Some m) names level), note_others names s)
          end
      end
  end.

(** base.py:176-182 [get_full_attr] *)
Fixpoint get_full_attr (n : node) : string :=
  match n with
  | Attribute v a => get_full_attr v ++ "." ++ a
  | Name i => i
  | _ => "None"
  end.

(** Node classes on which an attribute is looked into (import_transformer.py:345-356,
    basic_transformer.py:79-90). *)
Definition computed (n : node) : bool :=
  match n with
  | Call _ _ _ => true
  | Other k _ => mem_str k ["Compare"; "BinOp"; "UnaryOp"; "Subscript"; "Assert"; "IfExp"]
  | _ => false
  end.

(** base.py:195-233 [get_full_attr_strict] with an empty [black_list], as in this pass.
    The node classes at 213-216 are [computed] without IfExp. *)
Fixpoint full_attr_strict0 (n : node) : string :=
  match n with
  | Attribute v a => full_attr_strict0 v ++ "." ++ a
  | Name i => if String.eqb i "paddle" then "NonTorchClass" else i
  | Call _ _ _ => "TorchClass"
  | Other k _ =>
      if mem_str k ["Compare"; "BinOp"; "UnaryOp"; "Subscript"; "Assert"] then "TorchClass"
      else "NonTorchClass"
  | _ => "NonTorchClass"
  end.
Definition get_full_attr_strict0 (n : node) (s : ist) : string :=
  match torch_packages s with [] => "NonTorchClass" | _ => full_attr_strict0 n end.

(** import_transformer.py:345-371: does [visit_Attribute] look below the attribute? *)
Definition enters (n : node) (s : ist) : bool :=
  match n with
  | Attribute v _ =>
      computed v
      || match v with
         | Attribute _ a =>
             mem_str a ["T"; "real"; "weight"; "bias"; "imag"]
             || (String.eqb a "data" && negb (contains "utils.data" (get_full_attr_strict0 v s)))
         | _ => false
         end
  | _ => true
  end.

(** base.py:184-193 [get_torch_api_from_node]: [".".join] with a set or a dictionary in
    the first place is a TypeError. *)
Definition get_torch_api (n : node) (s : ist) : res (option string) :=
  let parts := split_on "."%char (get_full_attr n) in
  match parts with
  | [] => Ok None
  | m :: rest =>
      match dget String.eqb m (imports s) with
      | Some full => Ok (Some (join "." (full :: rest)))
      | None => if mem_str m bookkeeping then Raise "TypeError" else Ok None
      end
  end.

(** [ast.parse(s).body[0].value] for a dotted name. *)
Definition parse_dotted (s : string) : node :=
  match split_on "."%char s with
  | [] => Name ""
  | x :: r => fold_left Attribute r (Name x)
  end.

(** import_transformer.py:374-379, 434-442, 494-500: keep the node (min mode) or replace
    it by the full name. *)
Definition emit (e : env) (api : string) (n : node) (s : ist) : visited * ist :=
  if in_min_mode (min_mode e) api then (VNode n, with_kept s api)
  else (VNode (parse_dotted (canonical api)), s).

(** import_transformer.py:339-380 *)
Definition finish_attribute (e : env) (n : node) (s : ist) : res (visited * ist) :=
  let* api := get_torch_api n s in
  match api with
  | Some api => if String.eqb api "" then Ok (VNode n, s) else Ok (emit e api n s)
  | None => Ok (VNode n, s)
  end.

(** import_transformer.py:410-480: is the name in a position the pass looks at?  [inl]:
    a name bound by an alias assignment, with its API (line 429-442); [inr (t, a)]:
    [maybe_torch] and [maybe_alias_name].  [parent_node.func == node] is "the node hangs
    in field func".  Simplification: Python 3.9 or later (no [ast.Index] wrapper, kept
    here as an ordinary class name). *)
Definition field_is (f : string) (p : pos) : bool := String.eqb f (p_field p).
Definition name_position (id : string) (stack : list frame) (s : ist) : res (string + bool * bool) :=
  let* p := parent stack in
  let here := match stack with f :: _ => e_pos f | [] => At "" 0 end in
  if mem_str (kind_of p) ["ClassDef"; "FunctionDef"; "arg"; "arguments"; "Dict"] then Ok (inr (true, false))
  else
    match p with
    | Call f _ _ =>
        match f with
        | Name fid =>
            match dget String.eqb id (name_aliases s) with
            | Some api => Ok (inl api)
            | None =>
                Ok (inr (field_is "func" here
                         || mem_str fid ["isinstance"; "setattr"; "hasattr"; "super"; "partial"], false))
            end
        | Attribute _ _ => Ok (inr (String.eqb (get_full_attr f) "functools.partial", false))
        | _ => Ok (inr (false, false))
        end
    | _ =>
        let k := kind_of p in
        let grand := match stack with _ :: _ :: g :: _ => kind_of (e_node g) | _ => "" end in
        if String.eqb k "Subscript" && field_is "slice" here then Ok (inr (true, false))
        else if String.eqb k "Subscript" && field_is "value" here then
          Ok (inr (negb (String.eqb id "data"), false))
        else if String.eqb k "Tuple" && String.eqb grand "Subscript" then Ok (inr (true, false))
        else if String.eqb k "Assign" && field_is "value" here then Ok (inr (true, true))
        else if String.eqb k "Index" && field_is "value" here then Ok (inr (true, false))
        else Ok (inr (false, false))
    end.

(** The single plain-name target of the assignment (import_transformer.py:485-492). *)
Definition assign_target (p : node) : option string :=
  match p with
  | Other "Assign" fs =>
      match field_child fs (At "targets" 0), field_child fs (At "targets" 1) with
      | Some (Name t), None => Some t
      | _, _ => None
      end
  | _ => None
  end.

(** import_transformer.py:382-501 *)
Definition visit_name (e : env) (id : string) (stack : list frame) (s : ist) : res (visited * ist) :=
  let* w := name_position id stack s in
  match w with
  | inl api => Ok (emit e api (Name id) s)
  | inr (false, _) => Ok (VNode (Name id), s)
  | inr (true, assigned) =>
      let* api := get_torch_api (Name id) s in
      match api with
      | None => Ok (VNode (Name id), s)
      | Some api =>
          if String.eqb api "" then Ok (VNode (Name id), s)
          else
            let* p := parent stack in
            let s := match (if assigned : bool then assign_target p else None) with
                     | Some t => with_alias s t api
                     | None => s
                     end in
            Ok (emit e api (Name id) s)
      end
  end.

(** The visitor methods: [visit_Attribute] decides whether to look below; imports are
    not looked into; every other class is. *)
Definition import_pre (n : node) (stack : list frame) (s : ist) : res (bool * ist) :=
  match n with
  | Import _ | ImportFrom _ _ _ => Ok (false, s)
  | Attribute _ _ => Ok (enters n s, s)
  | _ => Ok (true, s)
  end.
Definition import_post (e : env) (n : node) (stack : list frame) (s : ist) : res (visited * ist) :=
  match n with
  | Name id => visit_name e id stack s
  | Attribute _ _ => finish_attribute e n s
  | Import names => visit_import e names stack s
  | ImportFrom m names level => visit_import_from e m names level stack s
  | _ => Ok (VNode n, s)
  end.

(** base.py:55-57 [transform] without the insertions. *)
Definition import_visit (e : env) (root : node) : res (visited * (list frame * ist)) :=
  visit import_pre (import_post e) root (At "" 0) ([], ist0).

(** import_transformer.py:503-528 and base.py:101-146: one "import package" statement per
    package, in the iteration order of the two sets, recorded at index 0 of the module
    body (duplicates dropped), then inserted there.  [order] is that iteration order. *)
Definition paddle_packages (order : list string -> list string) (s : ist) : list string :=
  (map (fun p => match dget String.eqb p torch_package_mapping with Some t => t | None => "" end)
       (order (torch_packages s)) ++ order (may_packages s))%list.
Definition keep_first (l : list string) : list string :=
  fold_left (fun acc x => set_add x acc) l [].
Definition import_stmt (p : string) : node := Import [MkAlias p None].
Definition insert_front (new : list node) (root : node) : node :=
  match root with
  | Other k fs =>
      Other k (map (fun f => match f with
                             | Many "body" l => Many "body" (new ++ l)
                             | f => f
                             end) fs)
  | n => n
  end.
Definition import_transform (e : env) (order : list string -> list string) (root : node) : res (node * ist) :=
  let* (v, (_, s)) := import_visit e root in
  match v with
  | VNode n => Ok (insert_front (map import_stmt (keep_first (paddle_packages order s))) n, s)
  | _ => Raise "root deleted"
  end.
