(** The traversal used by the conversion pass.  Unlike the import pass (module [Ast]) a
    visitor here may run [generic_visit] a second time on the node it has just rewritten
    (basic_transformer.py:77-105), so the traversal does not follow the input tree; and a
    visitor may remove its own node from the list it hangs in (line 160).  Definitions
    only. *)
From Verif Require Import PyStr Ast.

(** What a visitor returns: a value as in [Ast], or [None] after having removed the node
    from its parent's list. *)
Inductive reply := Reply (v : visited) | Unlisted.

Section Walk.
  Context {S : Type}.
  Definition wstate : Type := list frame * S.
  Definition walker : Type := node -> pos -> wstate -> res (reply * wstate).

  (** ast.py NodeTransformer.generic_visit, given the function that visits a child.
      List fields: if an element removes itself from the list, the iterator skips the
      next element, which is then missing from [new_values]. *)
  Section Generic.
    Variable V : walker.
    Fixpoint walk_list (nm : string) (l : list node) (i : nat) (st : wstate) {struct l} : res (list node * wstate) :=
      match l with
      | [] => Ok ([], st)
      | x :: l' =>
          let* (r, st') := V x (At nm i) st in
          match r with
          | Reply v =>
              let* (rest, st'') := walk_list nm l' (1 + i) st' in
              Ok ((spliced v ++ rest)%list, st'')
          | Unlisted =>
              match l' with
              | [] => Ok ([], st')
              | _ :: l'' => walk_list nm l'' (1 + i) st'
              end
          end
      end.
    Definition value_of (r : reply) : visited := match r with Reply v => v | Unlisted => VNone end.
    Fixpoint walk_fields (k : string) (done todo : list field) (st : wstate) {struct todo} : res (node * wstate) :=
      match todo with
      | [] => Ok (Other k done, st)
      | Data nm x :: r => walk_fields k (done ++ [Data nm x])%list r st
      | One nm c :: r =>
          let* (v, st1) := V c (At nm 0) st in
          let done' := (done ++ set_field nm (value_of v))%list in
          walk_fields k done' r (set_top (Other k (done' ++ r)) (fst st1), snd st1)
      | Many nm l :: r =>
          let* (l', st1) := walk_list nm l 0 st in
          let done' := (done ++ [Many nm l'])%list in
          walk_fields k done' r (set_top (Other k (done' ++ r)) (fst st1), snd st1)
      end.
    Definition attr_with (r : visited) (a : string) : node :=
      match r with
      | VNode v' => Attribute v' a
      | _ => Other "Attribute" (set_field "value" r ++ [Data "attr" a])
      end.
    Definition call_with (r : visited) (a k : list node) : node :=
      match r with
      | VNode f' => Call f' a k
      | _ => Other "Call" (set_field "func" r ++ [Many "args" a; Many "keywords" k])
      end.
    Definition walk_children (n : node) (st : wstate) : res (node * wstate) :=
      match n with
      | Attribute v a =>
          let* (r, st1) := V v (At "value" 0) st in
          let n' := attr_with (value_of r) a in
          Ok (n', (set_top n' (fst st1), snd st1))
      | Call f args kws =>
          let* (r, st1) := V f (At "func" 0) st in
          let st1 := (set_top (call_with (value_of r) args kws) (fst st1), snd st1) in
          let* (args', st2) := walk_list "args" args 0 st1 in
          let st2 := (set_top (call_with (value_of r) args' kws) (fst st2), snd st2) in
          let* (kws', st3) := walk_list "keywords" kws 0 st2 in
          let n' := call_with (value_of r) args' kws' in
          Ok (n', (set_top n' (fst st3), snd st3))
      | Other k fs => walk_fields k [] fs st
      | _ => Ok (n, st)
      end.
  End Generic.

  (** A visitor method: decide whether to look below; look below; decide whether to look
      below a second time; finish. *)
  Variable pre : node -> list frame -> S -> res (bool * S).
  Variable again : node -> list frame -> S -> bool.
  Variable post : node -> list frame -> S -> res (reply * S).

  (** base.py:59-63 [visit].  [depth] is Python's recursion limit. *)
  Fixpoint walk (depth : nat) (n : node) (p : pos) (st : wstate) {struct depth} : res (reply * wstate) :=
    match depth with
    | O => Raise "RecursionError"
    | Datatypes.S d =>
        let stack := MkFrame n p :: fst st in
        let* (go, u) := pre n stack (snd st) in
        let* (n1, st1) := if go : bool then walk_children (walk d) n (stack, u) else Ok (n, (stack, u)) in
        let* (n2, st2) := if again n1 (fst st1) (snd st1) then walk_children (walk d) n1 st1 else Ok (n1, st1) in
        let* (r, u') := post n2 (fst st2) (snd st2) in
        Ok (r, (tl (fst st2), u'))
    end.
End Walk.
