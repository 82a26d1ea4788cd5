(** Files in which the passes find nothing to do (C42). *)
From Verif Require Import PyStr PyDict TablesData Ast ImportPass ImportSpec BasicPass.

(** What the parser guarantees and the type [node] does not: attributes and calls are
    built with their own constructors, an expression statement has an expression, an
    import statement has names. *)
Definition well_formed (root : node) : Prop :=
  (forall k fs, In (Other k fs) (nodes root) ->
     ~ In k ["Attribute"; "Call"] /\ (k = "Expr" -> exists c, field_child fs (At "value" 0) = Some c)) /\
  (forall names, In (Import names) (nodes root) -> names <> []) /\
  (forall m names level, In (ImportFrom m names level) (nodes root) -> names <> []).
(** No [hasattr(p, ...)] or [setattr(p, ...)] with a name p of a torch package. *)
Definition no_package_probe (root : node) : Prop := forall f args kws i,
  In (Call (Name f) args kws) (nodes root) -> In f ["setattr"; "hasattr"] -> In (Name i) (args ++ kws) ->
  dget String.eqb i torch_package_mapping = None.
(** No [x = paddle.utils.cpp_extension.load(...)]. *)
Definition no_extension_load (root : node) : Prop := forall fs f args kws,
  In (Other "Assign" fs) (nodes root) -> field_child fs (At "value" 0) = Some (Call f args kws) ->
  get_full_attr f <> "paddle.utils.cpp_extension.load".
