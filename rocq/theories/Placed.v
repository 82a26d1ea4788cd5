(** Where generated statements go (specification).

    The program collects the statements to insert in a table indexed by node, field name
    and index while it walks over the file, and inserts them afterwards.  The reference
    conversion below has no such table: while an entry of a block is converted two lists
    are filled, the statements for the top of the file and those for directly above the
    entry; when the entry is done the second list is put right before it. *)
From Verif Require Import PyStr PyDict Ast ImportSpec Walk BasicPass NodeEq.

(** The nodes that own blocks, and the names of the blocks. *)
Definition block_owners : list string :=
  ["Module"; "FunctionDef"; "If"; "While"; "For"; "With"; "Try"; "TryFinally"; "ExceptHandler"].
Definition block_names : list string := ["body"; "orelse"; "finalbody"; "decorator_list"].

(** Statements asked for again are not put in twice. *)
Definition joined (old new : list node) : list node :=
  (old ++ filter (fun x => if in_dec node_dec x old then false else true) new)%list.

(** The top of the file. *)
Definition file_top : place := ([At "" 0], "body", 0).

Section Placed.
Context {M : Type}.
Variable e : benv M.

Definition without_records (s : bst M) : bst M :=
  MkBst (torch_count s) (success_count s) (all_apis s) (unsupported s) (scopes s) [] (shared s).
(** Everything asked for: at the top of the file, anywhere else. *)
Definition for_top (d : dict place (list node)) : list node :=
  flat_map (fun kv => if place_eqb (fst kv) file_top then snd kv else []) d.
Definition for_line (d : dict place (list node)) : list node :=
  flat_map (fun kv => if place_eqb (fst kv) file_top then [] else snd kv) d.

(** The counters and the matchers' state; statements for the top; statements for the line. *)
Definition pst : Type := bst M * (list node * list node).

(** Finish one node with nothing recorded before, and see what it asks for. *)
Definition finish (n : node) (stack : list frame) (st : pst) : res (reply * pst) :=
  let '(s, (top, line)) := st in
  let* (r, s') := basic_post e n stack (without_records s) in
  Ok (r, (without_records s', (joined top (for_top (records s')), joined line (for_line (records s'))))).

Section Blocks.
  Variable V : walker (S := pst).
  (** A block: every entry with the statements that go above it. *)
  Fixpoint convert_block (nm : string) (l : list node) (i : nat) (stack : list frame) (s : bst M) (top : list node)
    : res (list (list node * node) * (list frame * (bst M * list node))) :=
    match l with
    | [] => Ok ([], (stack, (s, top)))
    | x :: l' =>
        let* (r, (stack, (s, (top, above)))) := V x (At nm i) (stack, (s, (top, []))) in
        match r with
        | Reply (VNode y) =>
            let* (rest, st) := convert_block nm l' (1 + i) stack s top in
            Ok ((above, y) :: rest, st)
        | _ => Raise "entry removed"
        end
    end.
  Definition lay_out (l : list (list node * node)) : list node := flat_map (fun ax => fst ax ++ [snd ax])%list l.

  (** The fields of the owner of a block: as they stand while the rest is converted (the
      program inserts at the end), and as they are at the end. *)
  Fixpoint convert_fields (k : string) (now final todo : list field) (st : list frame * pst) {struct todo}
    : res (node * (list frame * pst)) :=
    match todo with
    | [] => Ok (Other k final, st)
    | Data nm x :: r => convert_fields k (now ++ [Data nm x])%list (final ++ [Data nm x])%list r st
    | One nm c :: r =>
        let* (v, st1) := V c (At nm 0) st in
        let now' := (now ++ set_field nm (value_of v))%list in
        convert_fields k now' (final ++ set_field nm (value_of v))%list r (set_top (Other k (now' ++ r)) (fst st1), snd st1)
    | Many nm l :: r =>
        if mem_str nm block_names then
          let '(stack, (s, (top, line))) := st in
          let* (b, (stack, (s, top))) := convert_block nm l 0 stack s top in
          let now' := (now ++ [Many nm (map snd b)])%list in
          convert_fields k now' (final ++ [Many nm (lay_out b)])%list r (set_top (Other k (now' ++ r)) stack, (s, (top, line)))
        else
          let* (l', st1) := walk_list V nm l 0 st in
          let now' := (now ++ [Many nm l'])%list in
          convert_fields k now' (final ++ [Many nm l'])%list r (set_top (Other k (now' ++ r)) (fst st1), snd st1)
    end.
End Blocks.

Definition enter (path : list pos) (st : pst) : pst := (with_scopes (fst st) (path :: scopes (fst st)), snd st).
Definition leave (st : pst) : pst := (with_scopes (fst st) (tl (scopes (fst st))), snd st).

Fixpoint convert (depth : nat) (n : node) (p : pos) (st : list frame * pst) {struct depth} : res (reply * (list frame * pst)) :=
  match depth with
  | O => Raise "RecursionError"
  | Datatypes.S d =>
      let stack := MkFrame n p :: fst st in
      match (if mem_str (kind_of n) block_owners then n else Name "") with
      | Other k fs =>
          let* (n', st1) := convert_fields (convert d) k [] [] fs (stack, enter (map e_pos stack) (snd st)) in
          Ok (Reply (VNode n'), (tl (fst st1), leave (snd st1)))
      | _ =>
          let* (n1, st1) := if looks_inside n then walk_children (convert d) n (stack, snd st) else Ok (n, (stack, snd st)) in
          let* (n2, st2) := if looks_again e n1 then walk_children (convert d) n1 st1 else Ok (n1, st1) in
          let* (r, u) := finish n2 (fst st2) (snd st2) in
          Ok (r, (tl (fst st2), u))
      end
  end.

(** The statements for the top go before everything else. *)
Definition with_top (top : list node) (n : node) : node :=
  match n with
  | Other k fs => Other k (map (fun f => match f with
                                         | Many nm l => Many nm (if String.eqb nm "body" then top ++ l else l)%list
                                         | f => f
                                         end) fs)
  | n => n
  end.
Definition convert_file (limit : nat) (body : list node) (rest : list field) (s : bst M) : res (node * bst M) :=
  let* (r, (_, (s, (top, _)))) := convert limit (Other "Module" (Many "body" body :: rest)) (At "" 0) ([], (s, ([], []))) in
  match r with
  | Reply (VNode n) => Ok (with_top top n, s)
  | _ => Raise "root deleted"
  end.
End Placed.

(** ** What the theorem assumes *)

(** No block owner anywhere inside. *)
Definition simple (n : node) : Prop := forall m, In m (nodes n) -> ~ In (kind_of m) block_owners.
(** What the parser guarantees: the fields of a node have different names, a block is a
    list, an expression statement has a value, and attributes and calls contain no
    statements. *)
Definition parsed (root : node) : Prop :=
  (forall k fs, In (Other k fs) (nodes root) ->
     NoDup (map field_name fs) /\
     (In k block_owners -> forall nm c, In (One nm c) fs -> ~ In nm block_names) /\
     (k = "Expr" -> exists c, In (One "value" c) fs)) /\
  (forall v a, In (Attribute v a) (nodes root) -> simple (Attribute v a)) /\
  (forall f a k, In (Call f a k) (nodes root) -> simple (Call f a k)).
(** What replaces an attribute or a call contains no block owner either. *)
Definition gives_expressions {M} (e : benv M) : Prop :=
  (forall t n, parse_expr e t = Ok n -> simple n) /\
  (forall m n st w l imps w', attr_nodes e m n st w = Ok (ANodes l, imps, w') -> l <> [] -> In (kind_of (result_node l)) call_results -> simple (result_node l)) /\
  (forall m a k st w x a' k' imps w', call_nodes e m a k st w = Ok (x, (a', k'), imps, w') ->
     Forall simple a -> Forall simple k ->
     Forall simple a' /\ Forall simple k' /\ (forall l, x = ANodes l -> l <> [] -> In (kind_of (result_node l)) call_results -> simple (result_node l))) /\
  (forall m f a k st w x a' k' imps w', class_nodes e m f a k st w = Ok (x, (a', k'), imps, w') ->
     Forall simple a -> Forall simple k ->
     Forall simple a' /\ Forall simple k' /\ (forall l, x = ANodes l -> l <> [] -> In (kind_of (result_node l)) call_results -> simple (result_node l))).
