(** Model of statement recording and insertion
    ([BaseTransformer.record_scope], [insert_scope], [scope_body_index],
    [insert_multi_node]; paconvert/base.py:66-170).  Definitions only. *)
From Verif Require Import PyStr PyDict.

(** A syntax node object: identity and [ast.dump] text. *)
Record obj := MkObj { oid : nat; odump : string }.

(** [self.scope_insert_lines]: scope node -> field name -> index -> statements. *)
Definition lines_at := dict nat (list obj).
Definition recs := dict nat (dict string lines_at).

Definition get2 (r : recs) (n : nat) (f : string) : lines_at :=
  match dget Nat.eqb n r with
  | Some fs => match dget String.eqb f fs with Some ls => ls | None => [] end
  | None => []
  end.

(** [node_list.remove(node)]: first element that is the same object. *)
Fixpoint remove_obj (x : obj) (l : list obj) : list obj :=
  match l with
  | [] => []
  | y :: r => if Nat.eqb (oid x) (oid y) then r else y :: remove_obj x r
  end.

(** base.py:143-148: loop over a copy of [node_list]. *)
Fixpoint remove_recorded (copy origin node_list : list obj) : list obj :=
  match copy with
  | [] => node_list
  | n :: r =>
      remove_recorded r origin
        (if existsb (fun e => String.eqb (odump n) (odump e)) origin
         then remove_obj n node_list else node_list)
  end.

(** base.py:127-154 [record_scope].  [scope_insert_lines] is a defaultdict(dict),
    so [self.scope_insert_lines[scope_node]] creates the entry. *)
Definition record_scope (r : recs) (n : nat) (f : string) (i : nat) (node_list : list obj) : recs :=
  match node_list with
  | [] => r
  | _ =>
      let fs := match dget Nat.eqb n r with Some fs => fs | None => [] end in
      let ls' :=
        match dget String.eqb f fs with
        | Some ls =>
            match dget Nat.eqb i ls with
            | Some origin => dset Nat.eqb i (origin ++ remove_recorded node_list origin node_list)%list ls
            | None => dset Nat.eqb i node_list ls
            end
        | None => [(i, node_list)]
        end in
      dset Nat.eqb n (dset String.eqb f ls' fs) r
  end.

(** Python [list.insert(i, x)]: past the end means at the end. *)
Fixpoint list_insert {A} (i : nat) (x : A) (l : list A) : list A :=
  match i, l with
  | O, _ => x :: l
  | S _, [] => [x]
  | S k, y :: r => y :: list_insert k x r
  end.

(** [sorted(items, key=index, reverse=True)] (keys are distinct). *)
Fixpoint insert_desc {A} (kv : nat * A) (l : list (nat * A)) : list (nat * A) :=
  match l with
  | [] => [kv]
  | kv' :: r => if (fst kv' <? fst kv)%nat then kv :: l else kv' :: insert_desc kv r
  end.
Fixpoint sort_desc {A} (l : list (nat * A)) : list (nat * A) :=
  match l with
  | [] => []
  | kv :: r => insert_desc kv (sort_desc r)
  end.

(** base.py:112-125, one field of one scope node. *)
Definition insert_field {A} (ls : dict nat (list A)) (block : list A) : list A :=
  fold_left (fun b kv => fold_left (fun b x => list_insert (fst kv) x b) (rev (snd kv)) b)
            (sort_desc ls) block.

(** The blocks of all nodes. *)
Definition store := nat -> string -> list obj.

Definition update (s : store) (n : nat) (f : string) (b : list obj) : store :=
  fun n' f' => if Nat.eqb n' n && String.eqb f' f then b else s n' f'.

(** base.py:104-125 [insert_scope].  Simplification: the [try/except] fallback
    (insert at 0) is not modelled, the fields involved are always lists. *)
Definition insert_scope (r : recs) (s : store) : store :=
  fold_left (fun s nfs =>
      fold_left (fun s fls => update s (fst nfs) (fst fls) (insert_field (snd fls) (s (fst nfs) (fst fls))))
                (snd nfs) s) r s.

(** * Where to insert: base.py:66-102 [scope_body_index] *)

(** The fields looked at, in order; only the first is not optional. *)
Definition scope_fields : list string := ["body"; "orelse"; "decorator_list"; "finalbody"].

Inductive found := Found (scope : nat) (field : string) (index : nat).

Inductive lookup_result :=
| LFound (r : found)
| LIndexError              (* self.scope_stack[-2] with one scope *)
| LNoEnd.                  (* still recursing after the given fuel *)

Section Lookup.
  Variable fields : nat -> string -> list nat.   (* children (ids) in a field *)

  Fixpoint index_of (x : nat) (l : list nat) : option nat :=
    match l with
    | [] => None
    | y :: r => if Nat.eqb y x then Some 0 else option_map S (index_of x r)
    end.

  Fixpoint first_field (fs : list string) (scope child : nat) : option found :=
    match fs with
    | [] => None
    | f :: r => match index_of child (fields scope f) with
                | Some i => Some (Found scope f i)
                | None => first_field r scope child
                end
    end.

  (** The loop over [node_stack] from the top.  [child] is [node_stack[i+1]]; for
      the topmost entry ([i = -1]) Python's index [0] makes it the bottom entry. *)
  Fixpoint search (rev_stack : list nat) (child scope : nat) : option found :=
    match rev_stack with
    | [] => None
    | x :: r =>
        if Nat.eqb x scope then
          match first_field scope_fields scope child with
          | Some fd => Some fd
          | None => search r x scope
          end
        else search r x scope
    end.

  Definition search_scope (node_stack : list nat) (scope : nat) : option found :=
    match node_stack with
    | [] => None
    | bottom :: _ => search (rev node_stack) bottom scope
    end.

  (** [l[-1]], [l[-2]]. *)
  Definition at_end (l : list nat) (k : nat) : option nat := nth_error (rev l) k.

  (** Recursive calls always use level -2. *)
  Fixpoint lookup2 (fuel : nat) (node_stack scope_stack : list nat) : lookup_result :=
    match fuel with
    | O => LNoEnd
    | S k =>
        match at_end scope_stack 1 with
        | None => LIndexError
        | Some sc => match search_scope node_stack sc with
                     | Some fd => LFound fd
                     | None => lookup2 k node_stack scope_stack
                     end
        end
    end.

  Definition scope_body_index (fuel : nat) (node_stack scope_stack : list nat) : lookup_result :=
    match at_end scope_stack 0 with
    | None => LIndexError
    | Some sc => match search_scope node_stack sc with
                 | Some fd => LFound fd
                 | None => lookup2 fuel node_stack scope_stack
                 end
    end.
End Lookup.
