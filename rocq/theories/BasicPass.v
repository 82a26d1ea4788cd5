(** The second pass over a file, basic_transformer.py: recognising API uses, asking the
    matcher of the API for a replacement, and counting.  Definitions only. *)
From Coq Require Import ZArith.
From Verif Require Import PyStr PyDict Args TablesData Lookup Ast Walk ImportPass.
From Verif Require Scope.

(** ** Matchers *)

(** A matcher object: the name it was built for (aliases resolved), its class, its row of
    the table and [origin_attr]. *)
Record matcher := MkMatcher { m_api : string; m_class : string; m_row : row; m_origin : string }.

(** What [get_paddle_nodes], [get_paddle_class_nodes] and
    [get_paddle_class_attribute_nodes] return. *)
Inductive answer := ADelete | AMisidentify | AUnchange | ANodes (l : list node) | ANothing.

(** What the pass is given.  [M] is the state shared by the matchers (counter of unique
    names, helper code, list of C++ extensions).  The matchers (about 450 classes in
    api_matcher.py) are arbitrary functions here: they may answer anything, raise, and
    ask for import statements (the [list node]: [enable_utils_code], base.py:496-522);
    [call_nodes] and [class_nodes] also return the argument lists, which matchers
    mutate (base.py:372). *)
Record benv (M : Type) := MkBenv {
  file_imports : ist;                                   (** [imports_map[file]] *)
  foreign : string -> node -> bool;                     (** base.py:219-229: the source text of the
                                                            node mentions the name as a module or call *)
  mentions_sys_path : node -> bool;                     (** base.py:165 ["sys.path" in astor.to_source(node)] *)
  parse_expr : string -> res node;                      (** [ast.parse(s).body[0].value] *)
  api_of : matcher -> list frame -> M -> res (option string * list node * M);   (** [get_paddle_api] *)
  attr_nodes : matcher -> node -> list frame -> M -> res (answer * list node * M);
  call_nodes : matcher -> list node -> list node -> list frame -> M ->
               res (answer * (list node * list node) * list node * M);
  class_nodes : matcher -> node -> list node -> list node -> list frame -> M ->
                res (answer * (list node * list node) * list node * M)
}.
Arguments file_imports {M}. Arguments foreign {M}. Arguments mentions_sys_path {M}. Arguments parse_expr {M}.
Arguments api_of {M}. Arguments attr_nodes {M}. Arguments call_nodes {M}. Arguments class_nodes {M}.

(** ** State *)

(** A place in the tree where statements are inserted: a node, one of its list fields,
    an index. *)
Definition place : Type := list pos * string * nat.
Definition place_eqb (a b : place) : bool :=
  path_eqb (fst (fst a)) (fst (fst b)) && String.eqb (snd (fst a)) (snd (fst b)) && Nat.eqb (snd a) (snd b).

(** The attributes of the transformer: the two counters, the two tables shared with the
    converter, the stack of scopes and [scope_insert_lines]. *)
Record bst (M : Type) := MkBst {
  torch_count : Z;
  success_count : Z;
  all_apis : dict string (string * nat);      (** name -> (paddle_api, count) *)
  unsupported : dict string nat;
  scopes : list (list pos);
  records : dict place (list node);
  shared : M
}.
Arguments MkBst {M}. Arguments torch_count {M}. Arguments success_count {M}. Arguments all_apis {M}.
Arguments unsupported {M}. Arguments scopes {M}. Arguments records {M}. Arguments shared {M}.

Section Pass.
Context {M : Type}.
Variable e : benv M.
Notation bst := (bst M).

(** basic_transformer.py:123-127, 296-300, 464-468, 637-641 *)
Definition recognise (api : string) (s : bst) : bst :=
  let old := match dget String.eqb api (all_apis s) with Some x => x | None => ("", 0) end in
  MkBst (torch_count s + 1) (success_count s) (dset String.eqb api (fst old, Datatypes.S (snd old)) (all_apis s))
        (unsupported s) (scopes s) (records s) (shared s).
(** [self.success_api_count += 1] *)
Definition succeed (s : bst) : bst :=
  MkBst (torch_count s) (success_count s + 1) (all_apis s) (unsupported s) (scopes s) (records s) (shared s).
(** [self.torch_api_count -= 1; del self.all_api_map[torch_api]] *)
Definition misidentified (api : string) (s : bst) : bst :=
  MkBst (torch_count s - 1) (success_count s) (ddel String.eqb api (all_apis s)) (unsupported s) (scopes s) (records s) (shared s).
(** [self.unsupport_api_map[torch_api] += 1] *)
Definition unsupport (api : string) (s : bst) : bst :=
  let c := match dget String.eqb api (unsupported s) with Some c => c | None => 0 end in
  MkBst (torch_count s) (success_count s) (all_apis s) (dset String.eqb api (Datatypes.S c) (unsupported s))
        (scopes s) (records s) (shared s).
(** [self.all_api_map[torch_api]["paddle_api"] = p] *)
Definition note_paddle (api p : string) (s : bst) : bst :=
  match dget String.eqb api (all_apis s) with
  | Some (_, c) =>
      MkBst (torch_count s) (success_count s) (dset String.eqb api (p, c) (all_apis s)) (unsupported s)
            (scopes s) (records s) (shared s)
  | None => s
  end.
Definition with_scopes (s : bst) (l : list (list pos)) : bst :=
  MkBst (torch_count s) (success_count s) (all_apis s) (unsupported s) l (records s) (shared s).
Definition with_shared (s : bst) (m : M) : bst :=
  MkBst (torch_count s) (success_count s) (all_apis s) (unsupported s) (scopes s) (records s) m.

(** ** Inserting statements *)

(** [ast.dump(a) == ast.dump(b)] *)
Fixpoint node_eqb (a b : node) {struct a} : bool :=
  let list_eqb := fix list_eqb (l m : list node) : bool :=
    match l, m with
    | [], [] => true
    | x :: l', y :: m' => node_eqb x y && list_eqb l' m'
    | _, _ => false
    end in
  let opt_eqb (x y : option string) :=
    match x, y with Some x, Some y => String.eqb x y | None, None => true | _, _ => false end in
  let names_eqb := fix names_eqb (l m : list alias) : bool :=
    match l, m with
    | [], [] => true
    | x :: l', y :: m' => String.eqb (al_name x) (al_name y) && opt_eqb (al_asname x) (al_asname y) && names_eqb l' m'
    | _, _ => false
    end in
  match a, b with
  | Name i, Name j => String.eqb i j
  | Attribute v x, Attribute w y => node_eqb v w && String.eqb x y
  | Call f l k, Call f' l' k' => node_eqb f f' && list_eqb l l' && list_eqb k k'
  | Import l, Import m => names_eqb l m
  | ImportFrom x l i, ImportFrom y m j => opt_eqb x y && names_eqb l m && Nat.eqb i j
  | Other k fs, Other k' fs' =>
      String.eqb k k' &&
      (fix fields_eqb (l m : list field) : bool :=
         match l, m with
         | [], [] => true
         | f :: l', g :: m' =>
             match f, g with
             | One x c, One y d => String.eqb x y && node_eqb c d
             | Many x c, Many y d => String.eqb x y && list_eqb c d
             | Data x c, Data y d => String.eqb x y && String.eqb c d
             | _, _ => false
             end && fields_eqb l' m'
         | _, _ => false
         end) fs fs'
  | _, _ => false
  end.

(** base.py:121-148 [record_scope] *)
Definition record (at_ : place) (l : list node) (s : bst) : bst :=
  match l with
  | [] => s
  | _ =>
      let l' := match dget place_eqb at_ (records s) with
                | Some old => (old ++ filter (fun x => negb (existsb (node_eqb x) old)) l)%list
                | None => l
                end in
      MkBst (torch_count s) (success_count s) (all_apis s) (unsupported s) (scopes s)
            (dset place_eqb at_ l' (records s)) (shared s)
  end.

(** The loop of base.py:73-97.  [below] is the position of [node_stack[i + 1]] below the
    entry; the topmost entry has none (Python looks at [node_stack[0]], the module, which
    hangs nowhere).  "The child is element [index] of field [f]" is its position. *)
Fixpoint find_scope (scope : list pos) (stack : list frame) (below : option pos) : option place :=
  match stack with
  | [] => None
  | f :: r =>
      match (if path_eqb (map e_pos stack) scope then below else None) with
      | Some c => if mem_str (p_field c) Scope.scope_fields then Some (scope, p_field c, p_index c)
                  else find_scope scope r (Some (e_pos f))
      | None => find_scope scope r (Some (e_pos f))
      end
  end.
(** base.py:69-99 [scope_body_index]: the innermost scope, then the one around it; the
    recursive call always asks for the same one, so a second failure never ends. *)
Definition scope_body_index (stack : list frame) (scopes : list (list pos)) : res place :=
  match scopes with
  | [] => Raise "IndexError"
  | sc :: rest =>
      match find_scope sc stack None with
      | Some p => Ok p
      | None =>
          match rest with
          | [] => Raise "IndexError"
          | sc' :: _ => match find_scope sc' stack None with
                        | Some p => Ok p
                        | None => Raise "RecursionError"
                        end
          end
      end
  end.

(** Position of the module. *)
Definition root_path : list pos := [At "" 0].
(** base.py:150-174 [insert_multi_node] *)
Definition is_import (n : node) : bool :=
  match n with Import _ | ImportFrom _ _ _ => true | _ => false end.
Definition insert_multi_node (l : list node) (stack : list frame) (s : bst) : res (bool * bst) :=
  let to_root n := is_import n || mentions_sys_path e n in
  let s1 := record (root_path, "body", 0) (filter to_root l) s in
  match filter (fun n => negb (to_root n)) l with
  | [] => Ok (true, s1)
  | others =>
      let* p := parent stack in
      if mem_str (kind_of p) ["DictComp"; "ListComp"] then Ok (false, s1)
      else
        let* at_ := scope_body_index stack (scopes s1) in
        Ok (true, record at_ others s1)
  end.

(** base.py:101-119 [insert_scope] for one node, applied when the node has been visited
    instead of at the end of the pass: statements are recorded for a scope only while
    something inside it is visited (for the module: while the module is). *)
Definition recorded_at (path : list pos) (f : string) (d : dict place (list node)) : dict nat (list node) :=
  flat_map (fun kv => if path_eqb path (fst (fst (fst kv))) && String.eqb f (snd (fst (fst kv)))
                      then [(snd (fst kv), snd kv)] else []) d.
Definition insert_recorded (path : list pos) (d : dict place (list node)) (n : node) : node :=
  match n with
  | Other k fs =>
      Other k (map (fun f => match f with
                             | Many nm l => Many nm (Scope.insert_field (recorded_at path nm d) l)
                             | f => f
                             end) fs)
  | n => n
  end.

(** ** Names *)

(** basic_transformer.py:61-65 *)
Definition black_list : list string := (other_packages (file_imports e) ++ ["ndarray"; "args"; "arg"])%list.

(** base.py:195-233 [get_full_attr_strict] *)
Fixpoint full_attr_strict (n : node) : string :=
  match n with
  | Attribute v a => if mem_str a black_list then "NonTorchClass" else full_attr_strict v ++ "." ++ a
  | Name i => if mem_str i black_list then "NonTorchClass" else if String.eqb i "paddle" then "NonTorchClass" else i
  | Call _ _ _ => if existsb (fun x => foreign e x n) black_list then "NonTorchClass" else "TorchClass"
  | Other k _ =>
      if mem_str k ["Compare"; "BinOp"; "UnaryOp"; "Subscript"; "Assert"] then
        if existsb (fun x => foreign e x n) black_list then "NonTorchClass" else "TorchClass"
      else "NonTorchClass"
  | _ => "NonTorchClass"
  end.
Definition get_full_attr_strict (n : node) : string :=
  match torch_packages (file_imports e) with [] => "NonTorchClass" | _ => full_attr_strict n end.

(** base.py:235-243 [replace_torch_module]; a bookkeeping entry is no string. *)
Definition replace_torch_module (origin : string) : res string :=
  match split_on "."%char origin with
  | [] => Ok origin
  | m :: rest =>
      match dget String.eqb m (imports (file_imports e)) with
      | Some full => Ok (join "." (full :: rest))
      | None => if mem_str m bookkeeping then Raise "TypeError" else Ok origin
      end
  end.
(** basic_transformer.py:769-774 *)
Definition start_with_torch (api : string) : bool :=
  existsb (fun p => startswith api (p ++ ".")) (torch_packages (file_imports e)).

(** ** Asking a matcher *)
Definition matcher_of (l : lookup) (origin : string) : res (option matcher) :=
  match l with
  | LAssert => Raise "AssertionError"
  | LNameError => Raise "NameError"
  | LNone => Ok None
  | LMatcher api cls r => Ok (Some (MkMatcher api cls r origin))
  end.
(** [matcher.get_paddle_api()] *)
Definition ask_api (m : matcher) (stack : list frame) (s : bst) : res (option string * bst) :=
  let* (p, l, w) := api_of e m stack (shared s) in
  let* (_, s) := insert_multi_node l stack (with_shared s w) in
  Ok (p, s).
(** [bool(paddle_api)] *)
Definition truthy (p : option string) : bool :=
  match p with Some p => negb (String.eqb p "") | None => false end.
(** basic_transformer.py:319-321, 478-480, 667-669:
    [all_api_map[api]["paddle_api"] = m.get_paddle_api() if m.get_paddle_api() else ""] *)
Definition ask_and_note (api : string) (m : matcher) (stack : list frame) (s : bst) : res bst :=
  let* (p, s) := ask_api m stack s in
  if truthy p then
    let* (p, s) := ask_api m stack s in
    Ok (note_paddle api (match p with Some p => p | None => "" end) s)
  else Ok (note_paddle api "" s).

Definition parent_is (k : string) (stack : list frame) : res bool :=
  let* p := parent stack in Ok (String.eqb (kind_of p) k).
Definition here (stack : list frame) : pos := match stack with f :: _ => e_pos f | [] => At "" 0 end.

(** ** Attributes that are not called *)

(** basic_transformer.py:203-244: [torch.nn.Module.add = ...], else not supported. *)
Definition attribute_rest (n : node) (api origin : string) (stack : list frame) (s : bst) : res (reply * bst) :=
  let give_up := Ok (Reply (VNode n), unsupport api s) in
  let parts := split_on "."%char api in
  if (3 <=? List.length parts)%nat then
    let* m := matcher_of (get_api_matcher (join "." (removelast parts))) origin in
    match m with
    | None => give_up
    | Some m =>
        let* (p, s) := ask_api m stack s in
        match p with
        | None => Raise "TypeError"
        | Some p =>
            if String.eqb p "unchange" then Ok (Reply (VNode n), succeed s)
            else
              let* new := parse_expr e (p ++ "." ++ last parts "") in
              Ok (Reply (VNode new), succeed s)
        end
    end
  else give_up.

(** basic_transformer.py:120-244 *)
Definition visit_torch_attribute (n : node) (api origin : string) (stack : list frame) (s : bst) : res (reply * bst) :=
  let s := recognise api s in
  let* m := matcher_of (attribute_lookup api) origin in
  match m with
  | None => attribute_rest n api origin stack s
  | Some m =>
      let* (p, s) := ask_api m stack s in
      match p with
      | None => attribute_rest n api origin stack s
      | Some p =>
          if String.eqb p "delete" then
            let* expr := parent_is "Expr" stack in
            let* def := parent_is "FunctionDef" stack in
            if expr then Ok (Reply VNone, succeed s)
            else if def && field_is "decorator_list" (here stack) then Ok (Unlisted, succeed s)
            else attribute_rest n api origin stack s
          else if String.eqb p "misidentify" then Ok (Reply (VNode n), misidentified api s)
          else if String.eqb p "unchange" then Ok (Reply (VNode n), succeed s)
          else if String.eqb p "" then attribute_rest n api origin stack s
          else
            let* new := parse_expr e p in
            Ok (Reply (VNode new), succeed (note_paddle api p s))
      end
  end.

(** The statement inserted before the line (basic_transformer.py:386-390, 752-756). *)
Definition annotation (api : string) : node :=
  Other "Expr" [One "value" (Other "Constant" [Data "value"
    ("'Not Support auto convert " ++ api ++ ", please judge whether it is Pytorch API and convert by yourself'")])].
Definition annotate (api : string) (stack : list frame) (s : bst) : res bst :=
  let* at_ := scope_body_index stack (scopes s) in
  Ok (unsupport api (record at_ [annotation api] s)).

(** [if isinstance(new_node, ast.Expr): new_node = new_node.value] on the last node. *)
Definition result_node (l : list node) : node :=
  match last l (Name "") with
  | Other "Expr" fs => match field_child fs (At "value" 0) with Some v => v | None => Other "Expr" fs end
  | n => n
  end.

(** basic_transformer.py:316-401 *)
Definition attribute_results : list string :=
  ["Call"; "Attribute"; "Name"; "Constant"; "Compare"; "BinOp"; "UnaryOp"; "Tuple"; "Assert"].
Definition trans_class_attribute (n : node) (api origin : string) (stack : list frame) (s : bst) : res (reply * bst) :=
  let give_up s := let* s := annotate api stack s in Ok (Reply (VNode n), s) in
  let* m := matcher_of (get_attribute_matcher api) origin in
  match m with
  | None => give_up s
  | Some m =>
      let* s := ask_and_note api m stack s in
      let* (a, l, w) := attr_nodes e m n stack (shared s) in
      let* (_, s) := insert_multi_node l stack (with_shared s w) in
      match a with
      | ADelete =>
          let* expr := parent_is "Expr" stack in
          if expr : bool then Ok (Reply VNone, succeed s) else give_up s
      | AUnchange => Ok (Reply (VNode n), succeed s)
      | AMisidentify => Ok (Reply (VNode n), misidentified api s)
      | ANothing | ANodes [] => give_up s
      | ANodes l =>
          if mem_str (kind_of (result_node l)) attribute_results then
            let* (ok, s) := insert_multi_node (removelast l) stack s in
            if ok : bool then Ok (Reply (VNode (result_node l)), succeed s) else give_up s
          else give_up s
      end
  end.

(** basic_transformer.py:249-292: the class attributes the chain may stand for. *)
Definition class_attributes (full : string) : list string :=
  let parts := split_on "."%char full in
  let name := last parts "" in
  if (2 <? List.length parts)%nat then
    if contains "self." full || existsb (fun k => contains k full) [".T."; ".data."; ".real."; ".imag."; ".weight."; ".bias."]
    then ["torch.Tensor." ++ name] else []
  else if (List.length parts =? 2)%nat then
    if contains "self." full then []
    else ["torch.Tensor." ++ name; "torch.autograd.function.FunctionCtx." ++ name]
  else [].

(** basic_transformer.py:107-314 *)
Definition finish_attribute (n : node) (stack : list frame) (s : bst) : res (reply * bst) :=
  let* p := parent stack in
  if (match p with Call _ _ _ => true | _ => false end) && field_is "func" (here stack) then Ok (Reply (VNode n), s)
  else
    let origin := get_full_attr_strict n in
    let* full := replace_torch_module origin in
    if start_with_torch full then visit_torch_attribute n full origin stack s
    else if contains "NonTorchClass" full then Ok (Reply (VNode n), s)
    else
      match find in_attribute_mapping (class_attributes full) with
      | Some api => trans_class_attribute n api origin stack (recognise api s)
      | None => Ok (Reply (VNode n), s)
      end.

(** ** Calls *)

(** basic_transformer.py:463-553 *)
Definition call_results : list string :=
  ["Call"; "Name"; "Constant"; "Attribute"; "Compare"; "BinOp"; "UnaryOp"; "Tuple"; "Assert"; "Subscript"].
Definition visit_torch_call (f : node) (args kws : list node) (api origin : string)
  (stack : list frame) (s : bst) : res (reply * bst) :=
  let s := recognise api s in
  let* m := matcher_of (get_api_matcher api) origin in
  match m with
  | None => Ok (Reply (VNode (Call f args kws)), unsupport api s)
  | Some m =>
      let* s := ask_and_note api m stack s in
      let* (a, kept, l, w) := call_nodes e m args kws stack (shared s) in
      let* (_, s) := insert_multi_node l stack (with_shared s w) in
      let n := Call f (fst kept) (snd kept) in
      let give_up s := Ok (Reply (VNode n), unsupport api s) in
      match a with
      | ADelete =>
          let* expr := parent_is "Expr" stack in
          if expr : bool then Ok (Reply VNone, succeed s) else give_up s
      | AMisidentify => Ok (Reply (VNode n), misidentified api s)
      | AUnchange => Ok (Reply (VNode n), succeed s)
      | ANothing | ANodes [] => give_up s
      | ANodes l =>
          if mem_str (kind_of (result_node l)) call_results then
            let* (ok, s) := insert_multi_node (removelast l) stack s in
            if ok : bool then Ok (Reply (VNode (result_node l)), succeed s) else give_up s
          else give_up s
      end
  end.

(** [torch_api[torch_api.rfind("."):]] *)
Definition method_suffix (api : string) : string :=
  match rsplit1 "."%char api with Some (_, m) => "." ++ m | None => substring (String.length api - 1) 1 api end.
(** basic_transformer.py:655-767 *)
Definition method_results : list string :=
  ["Call"; "Name"; "Constant"; "Attribute"; "Subscript"; "BinOp"; "Assert"; "Tuple"; "Compare"].
Definition is_self (n : node) : bool := match n with Name i => String.eqb i "self" | _ => false end.
Definition trans_class_method (f : node) (args kws : list node) (api origin : string)
  (stack : list frame) (s : bst) : res (reply * bst) :=
  let give_up args kws s :=
    let* s := annotate ("*" ++ method_suffix api) stack s in
    Ok (Reply (VNode (Call f args kws)), s) in
  let* m := matcher_of (get_api_matcher api) origin in
  match m with
  | None => give_up args kws s
  | Some m =>
      let self_first := match args with x :: _ => is_self x | [] => false end in
      let* s := ask_and_note api m stack s in
      let* (a, kept, l, w) := class_nodes e m f (if self_first then tl args else args) kws stack (shared s) in
      let* (_, s) := insert_multi_node l stack (with_shared s w) in
      let args := if self_first then args else fst kept in
      let kws := snd kept in
      match a with
      | ADelete =>
          let* expr := parent_is "Expr" stack in
          if expr : bool then Ok (Reply VNone, succeed s) else give_up args kws s
      | AUnchange => Ok (Reply (VNode (Call f args kws)), succeed s)
      | AMisidentify => Ok (Reply (VNode (Call f args kws)), misidentified api s)
      | ANothing | ANodes [] => give_up args kws s
      | ANodes l =>
          if mem_str (kind_of (result_node l)) method_results then
            let new := match result_node l with
                       | Call f' a' k' => Call f' (if self_first then Name "self" :: a' else a') k'
                       | n => n
                       end in
            let* (ok, s) := insert_multi_node (removelast l) stack s in
            if ok : bool then Ok (Reply (VNode new), succeed s) else give_up args kws s
          else give_up args kws s
      end
  end.

(** basic_transformer.py:558-623: the class methods the chain may stand for. *)
Definition class_methods (full : string) : list string :=
  let parts := split_on "."%char full in
  let name := last parts "" in
  let tensor := "torch.Tensor." ++ name in
  let module := "torch.nn.Module." ++ name in
  let optim := "torch.optim.Optimizer." ++ name in
  if (2 <? List.length parts)%nat then
    if contains "self." full then [tensor; module; optim]
    else if existsb (fun k => contains k full) [".T."; ".weight."; ".bias."] then [tensor] else []
  else if (List.length parts =? 2)%nat then
    if contains "self." full then [module; optim]
    else [tensor; module; optim; "torch.autograd.function.FunctionCtx." ++ name;
          "torch.distributions.distribution.Distribution." ++ name]
  else [].

(** basic_transformer.py:456-653 *)
Definition finish_call (f : node) (args kws : list node) (stack : list frame) (s : bst) : res (reply * bst) :=
  let origin := get_full_attr_strict f in
  let* full := replace_torch_module origin in
  if start_with_torch full || in_api_mapping full then visit_torch_call f args kws full origin stack s
  else if contains "NonTorchClass" full then Ok (Reply (VNode (Call f args kws)), s)
  else
    match find in_api_mapping (class_methods full) with
    | Some api => trans_class_method f args kws api origin stack (recognise api s)
    | None => Ok (Reply (VNode (Call f args kws)), s)
    end.

(** ** The other visitor methods *)

(** basic_transformer.py:851-880 [visit_Name] *)
Definition visit_name (i : string) (stack : list frame) (s : bst) : res (reply * bst) :=
  let* p := parent stack in
  match p with
  | Call (Name f) _ _ =>
      if mem_str f ["setattr"; "hasattr"] then
        match dget String.eqb i torch_package_mapping with
        | Some t => Ok (Reply (VNode (parse_dotted t)), s)
        | None => Ok (Reply (VNode (Name i)), s)
        end
      else Ok (Reply (VNode (Name i)), s)
  | _ => Ok (Reply (VNode (Name i)), s)
  end.

(** base.py:275-326 *)
Definition scope_kinds : list string :=
  ["FunctionDef"; "While"; "If"; "Try"; "TryFinally"; "For"; "With"; "ExceptHandler"; "Module"].

(** basic_transformer.py:77-105 *)
Definition looks_inside (n : node) : bool := match n with Attribute v _ => computed v | _ => true end.
Definition looks_again (n : node) : bool :=
  match n with
  | Attribute (Attribute v a) _ =>
      mem_str a ["T"; "real"; "weight"; "bias"; "imag"]
      || (String.eqb a "data" && negb (contains "utils.data" (get_full_attr_strict (Attribute v a))))
  | _ => false
  end.

Definition basic_pre (n : node) (stack : list frame) (s : bst) : res (bool * bst) :=
  Ok (looks_inside n,
      if mem_str (kind_of n) scope_kinds then with_scopes s (map e_pos stack :: scopes s) else s).
Definition basic_again (n : node) (stack : list frame) (s : bst) : bool := looks_again n.
(** [visit_Expr] (841-849): an expression statement whose value was deleted goes too. *)
Definition basic_post (n : node) (stack : list frame) (s : bst) : res (reply * bst) :=
  match n with
  | Name i => visit_name i stack s
  | Attribute _ _ => finish_attribute n stack s
  | Call f args kws => finish_call f args kws stack s
  | Other k fs =>
      if mem_str k ["Attribute"; "Call"] then Raise "AttributeError"
      else if String.eqb k "Expr" then
        Ok (Reply (match field_child fs (At "value" 0) with Some _ => VNode n | None => VNone end), s)
      else if mem_str k scope_kinds then
        Ok (Reply (VNode (insert_recorded (map e_pos stack) (records s) n)), with_scopes s (tl (scopes s)))
      else Ok (Reply (VNode n), s)
  | _ => Ok (Reply (VNode n), s)
  end.

(** base.py:55-57.  [limit]: Python's recursion limit. *)
Definition basic_walk (limit : nat) (n : node) (p : pos) (st : list frame * bst) : res (reply * (list frame * bst)) :=
  walk basic_pre basic_again basic_post limit n p st.
Definition basic_transform (limit : nat) (root : node) (s : bst) : res (node * bst) :=
  let* (r, (_, s)) := basic_walk limit root (At "" 0) ([], s) in
  match r with
  | Reply (VNode n) => Ok (n, s)
  | _ => Raise "root deleted"
  end.
End Pass.
