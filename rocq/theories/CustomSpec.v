(** Removing the classes that wrap custom operators, and --exclude_packages (C84, C85):
    specification. *)
From Verif Require Import PyStr PyDict Ast ImportPass ImportSpec CustomPass.

(** The class definitions in a tree in reading order, each by the label of its object
    ("@id", see CustomPass.v), leaving out the classes [dead] and everything in them. *)
Fixpoint classes_but (dead : list string) (n : node) : list string :=
  match n with
  | Attribute v _ => classes_but dead v
  | Call f a k => classes_but dead f ++ flat_map (classes_but dead) a ++ flat_map (classes_but dead) k
  | Other k fs =>
      let below := flat_map (fun f => match f with
                                      | One _ c => classes_but dead c
                                      | Many _ l => flat_map (classes_but dead) l
                                      | Data _ _ => []
                                      end) fs in
      if String.eqb k "ClassDef" then
        if mem_str (object_id n) dead then [] else object_id n :: below
      else below
  | _ => []
  end.
Definition classes (n : node) : list string := classes_but [] n.

(** What the parser guarantees: class definitions are labelled, and since a class is a
    statement there is none inside an expression [v.a]. *)
Definition labelled (n : node) : Prop :=
  forall fs, In (Other "ClassDef" fs) (nodes n) -> exists i rest, fs = Data "@id" i :: rest.
Definition statements_outside (n : node) : Prop :=
  forall v a, In (Attribute v a) (nodes n) -> classes v = [].

(** A class with [paddle.autograd.PyLayer] among its bases. *)
Definition pylayer (n : node) : Prop :=
  kind_of n = "ClassDef" /\ In "paddle.autograd.PyLayer" (map get_full_attr (list_of "bases" n)).
(** The name [i] stands for a C++ extension: imported, or the result of [load]. *)
Definition extension_name (c : cst) (i : string) : Prop := In i (dkeys (ext_imports c)) \/ In i (ext_loads c).
(** The statement [n] makes [i] such a name: [import ext], [import ext as i], [i = load(...)]. *)
Inductive names_extension (c : cst) : node -> string -> Prop :=
| by_import l i : In (MkAlias i None) l -> In i (extensions c) -> names_extension c (Import l) i
| by_import_as l x i : In (MkAlias x (Some i)) l -> In x (extensions c) -> names_extension c (Import l) i
| by_load fs i f a k : field_child fs (At "value" 0) = Some (Call f a k) -> get_full_attr f = "paddle.utils.cpp_extension.load"%string ->
    field_child fs (At "targets" 0) = Some (Name i) -> names_extension c (Other "Assign" fs) i.
