(** Which uses are recognised as uses of an API (C82): specification on the components of
    a dotted name. *)
From Verif Require Import PyStr PyStrFacts PyDict Lookup Ast ImportPass BasicPass.

Section Recognise.
Context {M : Type}.
Variable e : benv M.

(** Names that come from a package other than torch, and three names that are taken for
    one. *)
Definition elsewhere (i : string) : bool := mem_str i (other_packages (file_imports e) ++ ["ndarray"; "args"; "arg"]).
(** The value of a computed expression may be a tensor, unless the text of the expression
    mentions another package. *)
Definition some_value (n : node) : option (list string) :=
  if existsb (fun x => foreign e x n) (other_packages (file_imports e) ++ ["ndarray"; "args"; "arg"]) then None else Some ["TorchClass"].
(** The components of [a.b.c]; none if something in it cannot be torch's. *)
Fixpoint spelling (n : node) : option (list string) :=
  match n with
  | Name i => if elsewhere i || String.eqb i "paddle" then None else Some [i]
  | Attribute v a => if elsewhere a then None else option_map (fun l => l ++ [a])%list (spelling v)
  | Call _ _ _ => some_value n
  | Other k _ => if mem_str k ["Compare"; "BinOp"; "UnaryOp"; "Subscript"; "Assert"] then some_value n else None
  | _ => None
  end.
(** An imported name stands for what it was imported as. *)
Definition resolved (l : list string) : list string :=
  match l with
  | h :: rest => match dget String.eqb h (imports (file_imports e)) with Some full => split_on "."%char full ++ rest | None => l end
  | [] => []
  end%list.
(** The components after resolving; nothing is looked up in a file that imports no torch. *)
Definition components (n : node) : option (list string) :=
  match torch_packages (file_imports e) with [] => None | _ => option_map resolved (spelling n) end.

(** A name inside a torch package. *)
Definition in_torch (l : list string) : Prop :=
  exists p rest, In p (torch_packages (file_imports e)) /\ rest <> [] /\ l = (split_on "."%char p ++ rest)%list.

(** What the value of which an attribute is taken is called: everything but the last
    component.  A name that ends in [self] counts as [self]. *)
Definition owner (l : list string) : list string := removelast l.
Definition of_self (l : list string) : Prop := exists c, In c (owner l) /\ endswith c "self" = true.
Definition through (l : list string) (k : string) : Prop := In k (tl (owner l)).

(** [member called l class]: the attribute or method named last may be one of that class. *)
Inductive member (called : bool) (l : list string) : string -> Prop :=
| own_tensor : List.length l = 2 -> ~ of_self l -> member called l "torch.Tensor"
| own_context : List.length l = 2 -> ~ of_self l -> member called l "torch.autograd.function.FunctionCtx"
| own_module : called = true -> List.length l = 2 -> member called l "torch.nn.Module"
| own_optimizer : called = true -> List.length l = 2 -> member called l "torch.optim.Optimizer"
| own_distribution : called = true -> List.length l = 2 -> ~ of_self l -> member called l "torch.distributions.distribution.Distribution"
| self_tensor : 2 < List.length l -> of_self l -> member called l "torch.Tensor"
| self_module : called = true -> 2 < List.length l -> of_self l -> member called l "torch.nn.Module"
| self_optimizer : called = true -> 2 < List.length l -> of_self l -> member called l "torch.optim.Optimizer"
| deep_tensor k : 2 < List.length l -> through l k ->
    In k (if called then ["T"; "weight"; "bias"] else ["T"; "data"; "real"; "imag"; "weight"; "bias"]) -> member called l "torch.Tensor".
(** The classes in the order in which they are tried. *)
Definition classes : list string :=
  ["torch.Tensor"; "torch.nn.Module"; "torch.optim.Optimizer"; "torch.autograd.function.FunctionCtx"; "torch.distributions.distribution.Distribution"].

(** What a use stands for. *)
Inductive reading := Package (api : string) | Member (api : string) | Nothing.
Definition known (called : bool) (api : string) : Prop :=
  (if called then in_api_mapping api else in_attribute_mapping api) = true.
Definition dotted (l : list string) : string := join "." l.
Definition stands_for (called : bool) (n : node) (r : reading) : Prop :=
  match components n with
  | None => r = Nothing
  | Some l =>
      let package := in_torch l \/ (called = true /\ known true (dotted l)) in
      let candidate c := member called l c /\ known called (c ++ "." ++ last l "") in
      match r with
      | Package api => package /\ api = dotted l
      | Member api =>
          ~ package /\ exists before c after, classes = (before ++ c :: after)%list /\ api = c ++ "." ++ last l "" /\
                                              candidate c /\ forall c', In c' before -> ~ candidate c'
      | Nothing => ~ package /\ forall c, In c classes -> ~ candidate c
      end
  end.

(** Identifiers have no dots, and nothing is called like the marker the program uses. *)
Definition plain (c : string) : Prop := no_char "."%char c /\ contains "NonTorchClass" c = false.
Definition plain_file : Prop :=
  (forall h full, dget String.eqb h (imports (file_imports e)) = Some full -> h <> "NonTorchClass" /\ contains "NonTorchClass" full = false) /\
  (forall p, In p (torch_packages (file_imports e)) -> contains "NonTorchClass" p = false).
Definition plain_use (n : node) : Prop :=
  forall l, spelling n = Some l -> Forall plain l /\ ~ (exists h rest, l = h :: rest /\ In h bookkeeping).
End Recognise.
