(** Syntax trees and the node-by-node rewriting shared by all passes: Python's
    [ast.NodeTransformer] as specialised by [BaseTransformer] (base.py:55-67, 275-326).
    Definitions only. *)
From Verif Require Import PyStr.

(** Python exceptions are values. *)
Inductive res (A : Type) := Ok (a : A) | Raise (exception : string).
Arguments Ok {A}. Arguments Raise {A}.
Definition bind {A B} (r : res A) (f : A -> res B) : res B :=
  match r with Ok a => f a | Raise e => Raise e end.
Notation "'let*' p := r 'in' k" := (bind r (fun p => k)) (at level 200, p pattern, k at level 200).

(** [ast.alias]. *)
Record alias := MkAlias { al_name : string; al_asname : option string }.

(** [ast.AST].  The node classes some pass looks into have their own constructor; all
    others are [Other] with the class name and the fields in [_fields] order.
    Simplifications: [ctx] and position attributes are left out; a list field holds
    nodes only (lists of strings are [Data]); [None] fields are [Data]. *)
Inductive node :=
| Name (id : string)
| Attribute (value : node) (attr : string)
| Call (func : node) (args keywords : list node)
| Import (names : list alias)
| ImportFrom (module : option string) (names : list alias) (level : nat)
| Other (kind : string) (fields : list field)
with field :=
| One (name : string) (n : node)
| Many (name : string) (l : list node)
| Data (name : string) (text : string).

Definition field_name (f : field) : string :=
  match f with One n _ => n | Many n _ => n | Data n _ => n end.

(** [type(node).__name__] *)
Definition kind_of (n : node) : string :=
  match n with
  | Name _ => "Name"
  | Attribute _ _ => "Attribute"
  | Call _ _ _ => "Call"
  | Import _ => "Import"
  | ImportFrom _ _ _ => "ImportFrom"
  | Other k _ => k
  end.

(** Where a node hangs below its parent: the field and, in a list field, the index in
    the list as it was before the visit (NodeTransformer assigns the new list only after
    visiting all its elements).  Python compares nodes by identity; along one traversal
    a node object is identified by its path of positions from the root. *)
Record pos := At { p_field : string; p_index : nat }.

(** One entry of [node_stack] (base.py:50, 59-63): the node in its current state and its
    position below the entry underneath. *)
Record frame := MkFrame { e_node : node; e_pos : pos }.

(** What a visitor may return: a node, [None], or a list of nodes. *)
Inductive visited := VNode (n : node) | VNone | VList (l : list node).
Definition spliced (v : visited) : list node :=
  match v with VNode n => [n] | VNone => [] | VList l => l end.

(** The child hanging at a position. *)
Fixpoint field_child (fs : list field) (p : pos) : option node :=
  match fs with
  | [] => None
  | f :: r =>
      if String.eqb (field_name f) (p_field p) then
        match f with
        | One _ n => Some n
        | Many _ l => nth_error l (p_index p)
        | Data _ _ => None
        end
      else field_child r p
  end.
Definition fields_of (n : node) : list field :=
  match n with
  | Name i => [Data "id" i]
  | Attribute v a => [One "value" v; Data "attr" a]
  | Call f a k => [One "func" f; Many "args" a; Many "keywords" k]
  | Import _ => []
  | ImportFrom _ _ _ => []
  | Other _ fs => fs
  end.
Definition child_at (n : node) (p : pos) : option node := field_child (fields_of n) p.

Section Visitor.
  (** [S]: the attributes of the transformer object other than [node_stack]. *)
  Context {S : Type}.
  (** A visitor method has the shape: decide (with effects) whether to run
      [generic_visit], then finish with the updated node.  All visitor methods of the
      modelled passes have this shape. *)
  Variable pre : node -> list frame -> S -> res (bool * S).
  Variable post : node -> list frame -> S -> res (visited * S).

  Definition state : Type := list frame * S.

  (** [self.node_stack[-1]] is the same object as the node being rewritten. *)
  Definition set_top (n : node) (st : list frame) : list frame :=
    match st with [] => [] | e :: r => MkFrame n (e_pos e) :: r end.

  (** ast.py NodeTransformer.generic_visit, single-node field: [None] deletes the
      attribute, anything else is assigned. *)
  Definition set_field (nm : string) (v : visited) : list field :=
    match v with VNode n => [One nm n] | VNone => [] | VList l => [Many nm l] end.

  (** base.py:59-63 [visit], and NodeTransformer.generic_visit inlined per class. *)
  Fixpoint visit (n : node) (p : pos) (st : state) {struct n} : res (visited * state) :=
    let stack := MkFrame n p :: fst st in
    let* (go, u) := pre n stack (snd st) in
    let* (n', st') :=
      if go : bool then
        match n with
        | Attribute v a =>
            let* (r, st1) := visit v (At "value" 0) (stack, u) in
            let n' := match r with
                      | VNode v' => Attribute v' a
                      | _ => Other "Attribute" (set_field "value" r ++ [Data "attr" a])
                      end in
            Ok (n', (set_top n' (fst st1), snd st1))
        | Call f args kws =>
            let* (r, st1) := visit f (At "func" 0) (stack, u) in
            let n1 a k := match r with
                          | VNode f' => Call f' a k
                          | _ => Other "Call" (set_field "func" r ++ [Many "args" a; Many "keywords" k])
                          end in
            let st1 := (set_top (n1 args kws) (fst st1), snd st1) in
            let* (args', st2) :=
              (fix visit_list (l : list node) (i : nat) (st : state) : res (list node * state) :=
                 match l with
                 | [] => Ok ([], st)
                 | x :: l' =>
                     let* (r, st') := visit x (At "args" i) st in
                     let* (rest, st'') := visit_list l' (1 + i) st' in
                     Ok ((spliced r ++ rest)%list, st'')
                 end) args 0 st1 in
            let st2 := (set_top (n1 args' kws) (fst st2), snd st2) in
            let* (kws', st3) :=
              (fix visit_list (l : list node) (i : nat) (st : state) : res (list node * state) :=
                 match l with
                 | [] => Ok ([], st)
                 | x :: l' =>
                     let* (r, st') := visit x (At "keywords" i) st in
                     let* (rest, st'') := visit_list l' (1 + i) st' in
                     Ok ((spliced r ++ rest)%list, st'')
                 end) kws 0 st2 in
            let n' := n1 args' kws' in
            Ok (n', (set_top n' (fst st3), snd st3))
        | Other k fs =>
            (fix visit_fields (done todo : list field) (st : state) {struct todo} : res (node * state) :=
               match todo with
               | [] => Ok (Other k done, st)
               | Data nm x :: r => visit_fields (done ++ [Data nm x])%list r st
               | One nm c :: r =>
                   let* (v, st1) := visit c (At nm 0) st in
                   let done' := (done ++ set_field nm v)%list in
                   visit_fields done' r (set_top (Other k (done' ++ r)) (fst st1), snd st1)
               | Many nm l :: r =>
                   let* (l', st1) :=
                     (fix visit_list (l : list node) (i : nat) (st : state) : res (list node * state) :=
                        match l with
                        | [] => Ok ([], st)
                        | x :: l' =>
                            let* (v, st') := visit x (At nm i) st in
                            let* (rest, st'') := visit_list l' (1 + i) st' in
                            Ok ((spliced v ++ rest)%list, st'')
                        end) l 0 st in
                   let done' := (done ++ [Many nm l'])%list in
                   visit_fields done' r (set_top (Other k (done' ++ r)) (fst st1), snd st1)
               end) [] fs (stack, u)
        | _ => Ok (n, (stack, u))
        end
      else Ok (n, (stack, u)) in
    let* (r, u') := post n' (fst st') (snd st') in
    Ok (r, (tl (fst st'), u')).
End Visitor.
