(** What the conversion pass may do to a syntax tree (C68). *)
From Verif Require Import PyStr Lookup Ast BasicPass.

(** No matcher found for some name asks for an expression to be deleted.  [origin] is the
    text the name was written as; an attribute is not written as [delete], without dot. *)
Definition deletes_nothing {M} (e : benv M) : Prop :=
  (forall name a c r origin st w l w', attribute_lookup name = LMatcher a c r -> origin <> "delete" ->
     api_of e (MkMatcher a c r origin) st w <> Ok (Some "delete", l, w')) /\
  (forall name a c r origin n st w l w', get_attribute_matcher name = LMatcher a c r ->
     attr_nodes e (MkMatcher a c r origin) n st w <> Ok (ADelete, l, w')) /\
  (forall name a c r origin args kws st w x l w', get_api_matcher name = LMatcher a c r ->
     call_nodes e (MkMatcher a c r origin) args kws st w <> Ok (ADelete, x, l, w')) /\
  (forall name a c r origin f args kws st w x l w', get_api_matcher name = LMatcher a c r ->
     class_nodes e (MkMatcher a c r origin) f args kws st w <> Ok (ADelete, x, l, w')).

(** Names, attributes and calls are replaced by something.  Every other construct stays,
    with its fields; the elements of its lists stay in their order, and only in the lists
    of the constructs that open a scope may something be inserted between them. *)
Inductive conv : node -> node -> Prop :=
| conv_name i n : conv (Name i) n
| conv_attribute v a n : conv (Attribute v a) n
| conv_call f a k n : conv (Call f a k) n
| conv_import l : conv (Import l) (Import l)
| conv_from m l i : conv (ImportFrom m l i) (ImportFrom m l i)
| conv_other k fs fs' : convfs (mem_str k scope_kinds) fs fs' -> conv (Other k fs) (Other k fs')
with convs : bool -> list node -> list node -> Prop :=
| convs_nil b : convs b [] []
| convs_cons b x x' l l' : conv x x' -> convs b l l' -> convs b (x :: l) (x' :: l')
| convs_insert x l l' : convs true l l' -> convs true l (x :: l')
with convfs : bool -> list field -> list field -> Prop :=
| convfs_nil b : convfs b [] []
| convfs_one b nm c c' fs fs' : conv c c' -> convfs b fs fs' -> convfs b (One nm c :: fs) (One nm c' :: fs')
| convfs_many b nm l l' fs fs' : convs b l l' -> convfs b fs fs' -> convfs b (Many nm l :: fs) (Many nm l' :: fs')
| convfs_data b nm x fs fs' : convfs b fs fs' -> convfs b (Data nm x :: fs) (Data nm x :: fs').
