(** Specification of statement recording and insertion. *)
From Verif Require Import PyStr Scope.

(** One request: put [req_stmts] before entry [req_index] of field [req_field] of
    node [req_node]. *)
Record request := MkReq { req_node : nat; req_field : string; req_index : nat; req_stmts : list obj }.

(** [woven at i block]: before the statement number [k] of [block] (counting from
    [i]) come the statements [at k]; after the last one come those for the end. *)
Fixpoint woven {A} (at_ : nat -> list A) (i : nat) (block : list A) : list A :=
  match block with
  | [] => at_ i
  | x :: r => (at_ i ++ x :: woven at_ (S i) r)%list
  end.

Definition same_place (n : nat) (f : string) (i : nat) (q : request) : bool :=
  Nat.eqb (req_node q) n && String.eqb (req_field q) f && Nat.eqb (req_index q) i.

(** The statements collected for one place: every request adds those of its
    statements that do not read like one that is already there. *)
Definition add_batch (cur : list obj) (batch : list obj) : list obj :=
  (cur ++ filter (fun x => negb (existsb (fun e => String.eqb (odump x) (odump e)) cur)) batch)%list.
Definition collected (hist : list request) (n : nat) (f : string) (i : nat) : list obj :=
  fold_left add_batch (map req_stmts (filter (same_place n f i) hist)) [].

(** Objects with the same identity are the same object. *)
Definition consistent (hist : list request) : Prop :=
  forall q x y, In q hist -> In x (req_stmts q) -> In y (req_stmts q) -> oid x = oid y -> x = y.

(** Running a history of requests on the model. *)
Definition run (hist : list request) : recs :=
  fold_left (fun r q => record_scope r (req_node q) (req_field q) (req_index q) (req_stmts q)) hist [].

(** The current node lies inside entry [i] of field [f] of scope [sc]: in the stack
    of enclosing nodes (outermost first) [sc] is directly followed by that entry. *)
Definition encloses (fields : nat -> string -> list nat) (node_stack : list nat)
    (sc : nat) (f : string) (i : nat) : Prop :=
  exists a b c, node_stack = (a ++ sc :: c :: b)%list /\
    In f ["body"; "orelse"; "decorator_list"; "finalbody"] /\ nth_error (fields sc f) i = Some c.

(** The bottom of the stack (the module) is nobody's child. *)
Definition root_at_bottom (fields : nat -> string -> list nat) (node_stack : list nat) : Prop :=
  exists root rest, node_stack = root :: rest /\ forall sc f, ~ In root (fields sc f).
