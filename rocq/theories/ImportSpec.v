(** What the import pass is allowed to do to a file (C36-C43, C60-C66). *)
From Verif Require Import PyStr PyDict TablesData Lookup Ast ImportPass.

(** All nodes of a tree, the node itself first. *)
Fixpoint nodes (n : node) : list node :=
  n :: match n with
       | Attribute v _ => nodes v
       | Call f a k => nodes f ++ flat_map nodes a ++ flat_map nodes k
       | Other _ fs =>
           flat_map (fun f => match f with
                              | One _ c => nodes c
                              | Many _ l => flat_map nodes l
                              | Data _ _ => []
                              end) fs
       | _ => []
       end.

Definition is_import (n : node) : bool :=
  match n with Import _ | ImportFrom _ _ _ => true | _ => false end.
(** The import statements of a file, in order. *)
Definition imports_of (n : node) : list node := filter is_import (nodes n).

(** ** Grammar
    What Python's grammar guarantees and the type [node] does not: imports are
    statements, statements stand in blocks, an assignment has targets and a value,
    identifiers contain no dot and are not the keyword None. *)
Definition blocks : list string := ["body"; "orelse"; "finalbody"].
Definition local_ok (n : node) : Prop :=
  match n with
  | Name i => mem_char "."%char i = false /\ i <> "None"
  | Attribute v _ => imports_of v = []
  | Call f a k => forall x, In x (f :: a ++ k) -> is_import x = false
  | Other k fs =>
      (forall nm c, In (One nm c) fs -> is_import c = false) /\
      (forall nm l x, In (Many nm l) fs -> In x l -> is_import x = true -> In nm blocks) /\
      (k = "Assign" -> exists targets value text,
         fs = [Many "targets" targets; One "value" value; Data "type_comment" text])
  | Import names | ImportFrom _ names _ => forall a, In a names -> bound_name a <> "None"
  end.
Definition grammatical (n : node) : Prop := forall m, In m (nodes n) -> local_ok m.

(** ** Import statements *)
(** A module of one of the listed packages. *)
Definition torch_module (m : string) : bool := mem_str (first_component m) listed_packages.
(** A module whose name contains "audiotools." or is "audiotools". *)
Definition renames (m : string) : bool := contains "audiotools." m || String.eqb m "audiotools".
Definition renamed (a : alias) : alias :=
  match al_asname a with
  | Some n => MkAlias (py_replace (al_name a) "audiotools" "paddlespeech.audiotools") (Some n)
  | None => MkAlias "paddlespeech.audiotools" (Some "audiotools")
  end.

(** What becomes of one name of an "import a, b, c". *)
Definition new_alias (e : env) (a : alias) : list alias :=
  if is_local e (al_name a) then [a]
  else if torch_module (al_name a) then if min_mode e then [a] else []
  else if renames (al_name a) then [renamed a]
  else [a].
(** The names up to and including the first one that is a module of the project. *)
Fixpoint upto_local (e : env) (l : list alias) : list alias :=
  match l with
  | [] => []
  | a :: r => if is_local e (al_name a) then [a] else a :: upto_local e r
  end.

(** The import statement (none or one) that replaces an import statement. *)
Definition rewritten (e : env) (n : node) : list node :=
  match n with
  | Import names =>
      match flat_map (new_alias e) (upto_local e names) with
      | [] => []
      | names' => [Import names']
      end
  | ImportFrom module names level =>
      match from_module e module level with
      | Ok (Some (m, level)) =>
          if torch_module m then if min_mode e then [ImportFrom (Some m) names level] else []
          else if renames m then [ImportFrom (Some (py_replace m "audiotools" "paddlespeech.audiotools")) names level]
          else [ImportFrom (Some m) names level]
      | _ => [n]
      end
  | _ => [n]
  end.

(** The names a torch import binds, with what they stand for. *)
Definition bindings (e : env) (n : node) : list (string * string) :=
  match n with
  | Import names =>
      flat_map (fun a => if negb (is_local e (al_name a)) && torch_module (al_name a)
                         then [(bound_name a, al_name a)] else [])
               (upto_local e names)
  | ImportFrom module names level =>
      match from_module e module level with
      | Ok (Some (m, _)) =>
          if torch_module m then map (fun a => (bound_name a, m ++ "." ++ al_name a)) names else []
      | _ => []
      end
  | _ => []
  end.

(** ** Trees *)
(** The text of a dotted name. *)
Fixpoint dotted (n : node) : option string :=
  match n with
  | Name i => Some i
  | Attribute v a => match dotted v with Some t => Some (t ++ "." ++ a) | None => None end
  | _ => None
  end.

Section Rewriting.
  Variable e : env.
  (** [K x full]: the name x stands for the torch object full. *)
  Variable K : string -> string -> Prop.

  (** The statements a statement may be replaced by. *)
  Definition replaces (n : node) (new : list node) : Prop :=
    new = rewritten e n \/ (rewritten e n = [] /\ new = [pass_node]).

  (** The second tree results from the first by replacing import statements and by
      expanding dotted names whose first component K knows. *)
  Inductive rw : node -> node -> Prop :=
  | rw_name i : rw (Name i) (Name i)
  | rw_attr v v' a : rw v v' -> rw (Attribute v a) (Attribute v' a)
  | rw_call f f' a a' k k' : rw f f' -> rws a a' -> rws k k' -> rw (Call f a k) (Call f' a' k')
  | rw_other k fs fs' : rwfs fs fs' -> rw (Other k fs) (Other k fs')
  | rw_expand n m first rest full :
      rw n m -> dotted m = Some (first ++ rest) -> first_component (first ++ rest) = first ->
      K first full -> rw n (parse_dotted (canonical (full ++ rest)))
  with rws : list node -> list node -> Prop :=
  | rws_nil : rws [] []
  | rws_cons x x' l l' : is_import x = false -> rw x x' -> rws l l' -> rws (x :: l) (x' :: l')
  | rws_import x new l l' : is_import x = true -> replaces x new -> rws l l' -> rws (x :: l) (new ++ l')
  with rwfs : list field -> list field -> Prop :=
  | rwfs_nil : rwfs [] []
  | rwfs_one nm c c' fs fs' : rw c c' -> rwfs fs fs' -> rwfs (One nm c :: fs) (One nm c' :: fs')
  | rwfs_many nm l l' fs fs' : rws l l' -> rwfs fs fs' -> rwfs (Many nm l :: fs) (Many nm l' :: fs')
  | rwfs_data nm x fs fs' : rwfs fs fs' -> rwfs (Data nm x :: fs) (Data nm x :: fs').

  (** K knows at least what the torch imports of the file bind and what plain
      assignments "t = i" copy; None is a keyword. *)
  Definition knows (root : node) : Prop :=
    (forall i x full, In i (imports_of root) -> In (x, full) (bindings e i) -> K x full) /\
    (forall t i txt full,
       In (Other "Assign" [Many "targets" [Name t]; One "value" (Name i); Data "type_comment" txt]) (nodes root) ->
       K i full -> K t full) /\
    (forall full, ~ K "None" full).
End Rewriting.
Scheme rw_min := Minimality for rw Sort Prop
  with rws_min := Minimality for rws Sort Prop
  with rwfs_min := Minimality for rwfs Sort Prop.
Combined Scheme rw_mutind from rw_min, rws_min, rwfs_min.

(** A file. *)
Definition module (body : list node) : node := Other "Module" [Many "body" body; Many "type_ignores" []].
Definition program (body : list node) : Prop := grammatical (module body).

(** All statement blocks of a tree. *)
Definition own_blocks (n : node) : list (list node) :=
  match n with
  | Other _ fs =>
      flat_map (fun f => match f with
                         | Many nm l => if mem_str nm blocks then [l] else []
                         | _ => []
                         end) fs
  | _ => []
  end.
Definition all_blocks (n : node) : list (list node) := flat_map own_blocks (nodes n).

(** More grammar: fields have distinct names; the first block of an "if" or "try" is its
    body, which is not empty. *)
Definition shaped (n : node) : Prop := forall k fs, In (Other k fs) (nodes n) ->
  NoDup (map field_name fs) /\
  (In k ["If"; "Try"] -> exists head l tail,
     fs = (head ++ Many "body" l :: tail)%list /\ l <> [] /\ forall nm l', ~ In (Many nm l') head).
Definition bodies_nonempty (n : node) : Prop := forall k fs l,
  In (Other k fs) (nodes n) -> In k ["If"; "Try"] -> In (Many "body" l) fs -> l <> [].

(** An import statement that stays as it is: no torch or renamed module, and only the
    last name may be a module of the project. *)
Definition plain (e : env) (n : node) : Prop :=
  match n with
  | Import names =>
      names <> [] /\ upto_local e names = names /\
      forall a, In a names -> is_local e (al_name a) = true \/
                              (torch_module (al_name a) = false /\ renames (al_name a) = false)
  | ImportFrom (Some m) _ O => is_local e m = true \/ (torch_module m = false /\ renames m = false)
  | ImportFrom _ _ O => False
  | ImportFrom _ _ level => contains "huggingface_internal" (file e) = false \/ (level <> 2 /\ level <> 3)
  | _ => False
  end.

(** An import statement of absolute modules outside the project, none of them renamed. *)
Definition unrenamed (e : env) (n : node) : Prop :=
  match n with
  | Import names =>
      names <> [] /\
      forall a, In a names -> is_local e (al_name a) = false /\ (torch_module (al_name a) = true \/ renames (al_name a) = false)
  | ImportFrom (Some m) _ O => is_local e m = true \/ torch_module m = true \/ renames m = false
  | ImportFrom _ _ O => False
  | ImportFrom _ _ level => contains "huggingface_internal" (file e) = false \/ (level <> 2 /\ level <> 3)
  | _ => False
  end.

(** An import statement that imports no torch module, unless from the project. *)
Definition torch_free (e : env) (n : node) : Prop :=
  match n with
  | Import names => forall a, In a names -> torch_module (al_name a) = true -> is_local e (al_name a) = true
  | ImportFrom (Some m) _ O => torch_module m = true -> is_local e m = true
  | _ => True
  end.

(** ** Packages
    The listed packages an import statement imports from. *)
Definition packages_used (e : env) (n : node) : list string :=
  match n with
  | Import names =>
      flat_map (fun a => if negb (is_local e (al_name a)) && torch_module (al_name a)
                         then [first_component (al_name a)] else [])
               (upto_local e names)
  | ImportFrom module names level =>
      match from_module e module level with
      | Ok (Some (m, _)) => if torch_module m then [first_component m] else []
      | _ => []
      end
  | _ => []
  end.
(** What is imported in place of a listed package. *)
Definition replacement (p : string) : string :=
  if mem_str p may_torch_package_list then p
  else match dget String.eqb p torch_package_mapping with Some t => t | None => "" end.

(** ** Names the pass cannot handle
    No identifier and no imported name is one of the four words the program uses for its
    own entries, and every absolute "from m import x" has a module. *)
Definition safe (e : env) (n : node) : Prop :=
  match n with
  | Name i => ~ In (first_component i) bookkeeping
  | Import _ => forall x full, In (x, full) (bindings e n) -> ~ In x bookkeeping
  | ImportFrom module _ level =>
      (forall x full, In (x, full) (bindings e n) -> ~ In x bookkeeping) /\
      (module = None -> level <> 0)
  | _ => True
  end.

(** ** Positions in which a bare name is replaced *)
Definition expanding (grandparent_kind : string) (parent : node) (field : string) (x : string) : Prop :=
  match parent with
  | Call (Name f) _ _ => field = "func" \/ In f ["isinstance"; "setattr"; "hasattr"; "super"; "partial"]
  | Call (Attribute _ _ as f) _ _ => dotted f = Some "functools.partial"
  | Call _ _ _ => False
  | _ =>
      In (kind_of parent) ["ClassDef"; "FunctionDef"; "arg"; "arguments"; "Dict"] \/
      (kind_of parent = "Subscript" /\ (field = "slice" \/ (field = "value" /\ x <> "data"))) \/
      (kind_of parent = "Tuple" /\ grandparent_kind = "Subscript") \/
      (kind_of parent = "Assign" /\ field = "value") \/
      (kind_of parent = "Index" /\ field = "value")
  end.

(** ** Chains the pass does not look into: the last attribute but one is an ordinary one. *)
Definition simple_chain (n : node) : Prop :=
  match n with
  | Attribute (Name _) _ => True
  | Attribute (Attribute _ b) _ => ~ In b ["T"; "real"; "weight"; "bias"; "imag"; "data"]
  | _ => False
  end.
(** What a name stands for after a list of bindings: the last one counts. *)
Definition stands_for (l : list (string * string)) (x full : string) : Prop :=
  exists before after, l = (before ++ (x, full) :: after)%list /\ forall f, ~ In (x, f) after.

(** ** Modules of the project *)
Fixpoint map_chars (f : ascii -> ascii) (s : string) : string :=
  match s with EmptyString => EmptyString | String c r => String (f c) (map_chars f r) end.
(** The path of a module below a directory. *)
Definition module_path (dir m : string) : string :=
  dir ++ "/" ++ map_chars (fun c => if Ascii.eqb c "."%char then "/"%char else c) m.

(** ** Relative imports in files below huggingface_internal: the package the dots mean. *)
Definition internal_prefix (pipeline : bool) (level : nat) : string :=
  match pipeline, level with
  | true, 3 => "diffusers"
  | true, _ => "diffusers.pipelines"
  | false, 3 => "transformers"
  | false, _ => "transformers.models"
  end.
Definition internal_module (pipeline : bool) (level : nat) (m : option string) : string :=
  match m with
  | None | Some "" => internal_prefix pipeline level
  | Some m => internal_prefix pipeline level ++ "." ++ m
  end.
