(** The names of a Python module: which names its statements bind, which it reads without anything
    binding them, and which of its names [from module import *] gives (C131, C132).
    This is a small account of Python's scoping rules, for the statements that the texts of
    HelperTexts.v are made of; it follows the Python reference, not PaConvert.  Simplified: it does not look at
    the order of statements, [del], [global] and [nonlocal], which the texts do not contain. *)
From Verif Require Import PyStr Ast BasicPass.
Open Scope string_scope.
Open Scope list_scope.

Definition mem (x : string) (l : list string) : bool := existsb (String.eqb x) l.

(** The names a list of imported names binds: [as] names, else the part before the first dot. *)
Fixpoint first_part (s : string) : string :=
  match s with
  | EmptyString => EmptyString
  | String c s' => if Ascii.eqb c "."%char then EmptyString else String c (first_part s')
  end.
Definition alias_name (a : alias) : string :=
  match al_asname a with Some x => x | None => first_part (al_name a) end.

(** The names below an assignment target. *)
Fixpoint targets (n : node) : list string :=
  match n with
  | Name x => [x]
  | Other "Tuple" fs | Other "List" fs | Other "Starred" fs =>
      flat_map (fun f => match f with One _ c => targets c | Many _ l => flat_map targets l | Data _ _ => [] end) fs
  | _ => []
  end.

Definition text_field (k : string) (fs : list field) : list string :=
  flat_map (fun f => match f with Data k' x => if String.eqb k k' then [x] else [] | _ => [] end) fs.
Definition nodes_of (f : field) : list node := match f with One _ c => [c] | Many _ l => l | Data _ _ => [] end.

(** The names a node binds in the scope it stands in.  Functions, classes, lambdas and comprehensions
    have scopes of their own, so only the name of a function or class counts. *)
Fixpoint binds (n : node) : list string :=
  let deep := flat_map (fun f => match f with One _ c => binds c | Many _ l => flat_map binds l | Data _ _ => [] end) in
  match n with
  | Import l | ImportFrom _ l _ => map alias_name l
  | Other "FunctionDef" fs | Other "AsyncFunctionDef" fs | Other "ClassDef" fs => text_field "name" fs
  | Other "Lambda" _ | Other "ListComp" _ | Other "SetComp" _ | Other "DictComp" _ | Other "GeneratorExp" _ => []
  | Other k fs =>
      (if mem k ["Assign"; "AugAssign"; "AnnAssign"; "For"; "NamedExpr"; "withitem"]
       then flat_map (fun f => if mem (field_name f) ["target"; "targets"; "optional_vars"] then flat_map targets (nodes_of f) else []) fs
       else if String.eqb k "ExceptHandler" then text_field "name" fs else [])
      ++ deep fs
  | _ => []
  end.
Definition binds_all (l : list node) : list string := flat_map binds l.

(** The names of the parameters of an [arguments] node. *)
Definition parameters (n : node) : list string :=
  match n with
  | Other "arguments" fs =>
      flat_map (fun f => if mem (field_name f) ["posonlyargs"; "args"; "vararg"; "kwonlyargs"; "kwarg"]
                         then flat_map (fun a => match a with Other "arg" gs => text_field "arg" gs | _ => [] end) (nodes_of f) else []) fs
  | _ => []
  end.
Definition parameters_of (fs : list field) : list string :=
  flat_map (fun f => if String.eqb (field_name f) "args" then flat_map parameters (nodes_of f) else []) fs.
(** The targets of the [for] parts of a comprehension. *)
Definition comprehended (fs : list field) : list string :=
  flat_map (fun f => match f with
    | Many "generators" l => flat_map (fun g => match g with
        | Other "comprehension" gs => flat_map (fun h => if String.eqb (field_name h) "target" then flat_map targets (nodes_of h) else []) gs
        | _ => [] end) l
    | _ => [] end) fs.
Definition body_of (fs : list field) : list node :=
  flat_map (fun f => if String.eqb (field_name f) "body" then nodes_of f else []) fs.

(** The names that a node reads although nothing binds them.  [here] are the names visible where
    the node stands, [inner] those visible to functions defined there: they differ in the body of a class,
    whose names its methods do not see. *)
Fixpoint unknown (inner here : list string) (n : node) : list string :=
  let inside i h f := match f with One _ c => unknown i h c | Many _ l => flat_map (unknown i h) l | Data _ _ => [] end in
  match n with
  | Name x => if mem x here then [] else [x]
  | Attribute v _ => unknown inner here v
  | Call f a k => unknown inner here f ++ flat_map (unknown inner here) a ++ flat_map (unknown inner here) k
  | Import _ | ImportFrom _ _ _ => []
  | Other k fs =>
      if mem k ["FunctionDef"; "AsyncFunctionDef"; "Lambda"] then
        let v := parameters_of fs ++ binds_all (body_of fs) ++ inner in
        flat_map (fun f => if String.eqb (field_name f) "body" then inside v v f else inside inner here f) fs
      else if String.eqb k "ClassDef" then
        flat_map (fun f => if String.eqb (field_name f) "body" then inside inner (binds_all (body_of fs) ++ inner) f else inside inner here f) fs
      else if mem k ["ListComp"; "SetComp"; "DictComp"; "GeneratorExp"] then
        let v := comprehended fs ++ here in flat_map (inside (comprehended fs ++ inner) v) fs
      else if mem k ["Assign"; "AugAssign"; "AnnAssign"; "For"; "NamedExpr"; "withitem"; "comprehension"] then
        flat_map (inside inner (flat_map (fun f => if mem (field_name f) ["target"; "targets"; "optional_vars"] then flat_map targets (nodes_of f) else []) fs ++ here)) fs
      else flat_map (inside inner here) fs
  end.

(** The names of Python's built-ins that the texts could use. *)
Definition builtins : list string :=
  ["abs"; "all"; "any"; "bool"; "bytes"; "callable"; "dict"; "enumerate"; "filter"; "float"; "frozenset"; "getattr"; "hasattr"; "hash"; "id";
   "int"; "isinstance"; "issubclass"; "iter"; "len"; "list"; "map"; "max"; "min"; "next"; "object"; "open"; "pow"; "print"; "property";
   "range"; "repr"; "reversed"; "round"; "set"; "setattr"; "slice"; "sorted"; "staticmethod"; "classmethod"; "str"; "sum"; "super"; "tuple"; "type"; "vars"; "zip";
   "Exception"; "AssertionError"; "AttributeError"; "IndexError"; "KeyError"; "NotImplementedError"; "RuntimeError"; "TypeError"; "ValueError"; "ZeroDivisionError"; "NotImplemented";
   "__name__"; "__file__"; "__doc__"].

(** The names that a module made of these statements reads although nothing in it binds them. *)
Definition missing (l : list node) : list string :=
  flat_map (unknown (binds_all l ++ builtins) (binds_all l ++ builtins)) l.

(** [from module import *], for a module without [__all__]: every name that does not begin with an
    underscore (Python reference, 7.11). *)
Definition exported (x : string) : bool := negb (String.eqb (String.substring 0 1 x) "_").
Definition star_names (l : list node) : list string := filter exported (binds_all l).

(** What a name of the module stands for after its statements ran: the last statement that bound it;
    likewise for the attributes that [setattr(object, "name", value)] sets. *)
Definition keys_of (n : node) : list string :=
  match n with
  | Other "Expr" [One "value" (Call (Name "setattr") [obj; Other "Constant" [Data "value" a]; _] [])] =>
      ["setattr " ++ (fix dotted (m : node) : string := match m with Name x => x | Attribute v x => dotted v ++ "." ++ x | _ => "?" end) obj ++ " " ++ a]%string
  | _ => binds n
  end.
Fixpoint stands_for (x : string) (l : list node) : option node :=
  match l with
  | [] => None
  | n :: l' => match stands_for x l' with Some r => Some r | None => if mem x (keys_of n) then Some n else None end
  end.
