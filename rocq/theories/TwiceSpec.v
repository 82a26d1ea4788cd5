(** Converting what was converted (C135). *)
From Verif Require Import PyStr PyDict TablesData Lookup Ast ImportPass ImportSpec.
Open Scope string_scope.

(** An import statement that names no module called "audiotools" or containing "audiotools.",
    and does not import the packages that are imported again under their own name; modules of
    the project may have any name. *)
Definition ordinary (e : env) (m : string) : Prop :=
  is_local e m = true \/
  (torch_module m = true /\ ~ In (first_component m) ["setuptools"; "os"; "einops"]) \/
  (torch_module m = false /\ renames m = false).
Definition settles (e : env) (n : node) : Prop :=
  match n with
  | Import names => forall a, In a names -> ordinary e (al_name a)
  | ImportFrom (Some m) _ O => ordinary e m
  | ImportFrom None _ O => False
  | ImportFrom _ _ level => contains "huggingface_internal" (file e) = false \/ (level <> 2 /\ level <> 3)
  | _ => False
  end.

(** The statement "import q", and how often it stands in a file. *)
Definition plain_import (q : string) : node := Import [MkAlias q None].
Definition is_plain_import (q : string) (n : node) : bool :=
  match n with
  | Import [MkAlias m None] => String.eqb m q
  | _ => false
  end.
Definition times_imported (q : string) (root : node) : nat := length (filter (is_plain_import q) (imports_of root)).
