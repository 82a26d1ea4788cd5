(** What becomes of a recognised use (C83): specification. *)
From Coq Require Import ZArith.
From Verif Require Import PyStr PyDict Ast Walk BasicPass NodeEq Placed.

(** How a use is booked. *)
Inductive mark := Converted | NotConverted | NotTorch.

Section Effect.
Context {M : Type}.
Variable e : benv M.

(** ** Statements asked for *)

(** Imports and changes of the search path go to the top of the file, other statements
    above the line. *)
Definition for_the_top (l : list node) : list node :=
  filter (fun n => match n with Import _ | ImportFrom _ _ _ => true | _ => mentions_sys_path e n end) l.
Definition for_the_line (l : list node) : list node :=
  filter (fun n => match n with Import _ | ImportFrom _ _ _ => false | _ => negb (mentions_sys_path e n) end) l.
(** Directly inside a list or dictionary comprehension there is no room for statements. *)
Definition no_room (p : node) : Prop := kind_of p = "DictComp" \/ kind_of p = "ListComp".
Definition no_room_b (p : node) : bool := String.eqb (kind_of p) "DictComp" || String.eqb (kind_of p) "ListComp".
(** A request: what goes to the top, what goes above the line. *)
Definition request : Type := list node * list node.
Definition ask (p : node) (l : list node) : request := (for_the_top l, if no_room_b p then [] else for_the_line l).
(** What a place of the file holds after a request; [line] is the place above the line. *)
Definition granted (line k : place) (held : list node) (r : request) : list node :=
  let held := if place_eqb k file_top then joined held (fst r) else held in
  if place_eqb k line then joined held (snd r) else held.
Definition held (k : place) (s : bst M) : list node := match dget place_eqb k (records s) with Some l => l | None => [] end.

Definition requested (line : place) (rs : list request) (s s' : bst M) : Prop :=
  forall k, held k s' = fold_left (granted line k) rs (held k s).
(** [line] is the place above the current line, if the program can find one. *)
Definition above (st : list frame) (line : place) (s : bst M) : Prop := forall a, scope_body_index st (scopes s) = Ok a -> a = line.

(** ** Booking *)
Definition old_name (api : string) (s : bst M) : string := match dget String.eqb api (all_apis s) with Some (n, _) => n | None => "" end.
Definition times (k : string) (d : dict string (string * nat)) : nat := match dget String.eqb k d with Some (_, c) => c | None => 0 end.
Definition booked (api label name : string) (m : mark) (s s' : bst M) : Prop :=
  torch_count s' = (torch_count s + match m with NotTorch => 0 | _ => 1 end)%Z /\
  success_count s' = (success_count s + match m with Converted => 1 | _ => 0 end)%Z /\
  dget String.eqb api (all_apis s') = match m with NotTorch => None | _ => Some (name, S (times api (all_apis s))) end /\
  (forall k, k <> api -> dget String.eqb k (all_apis s') = dget String.eqb k (all_apis s)) /\
  dget String.eqb label (unsupported s') =
    match m with
    | NotConverted => Some (S (match dget String.eqb label (unsupported s) with Some c => c | None => 0 end))
    | _ => dget String.eqb label (unsupported s)
    end /\
  (forall k, k <> label -> dget String.eqb k (unsupported s') = dget String.eqb k (unsupported s)) /\
  scopes s' = scopes s.

(** ** The paddle name, asked for once, and again if there is one *)
Inductive named (m : matcher) (st : list frame) (w : M) : string -> list (list node) -> M -> Prop :=
| unnamed p l w' : api_of e m st w = Ok (p, l, w') -> (p = None \/ p = Some "") -> named m st w "" [l] w'
| named_twice p l w1 q l' w' : api_of e m st w = Ok (Some p, l, w1) -> p <> "" -> api_of e m st w1 = Ok (q, l', w') ->
    named m st w (match q with Some q => q | None => "" end) [l; l'] w'.

(** ** The answer of a matcher *)

(** The expression a line stands for. *)
Inductive expression_of : node -> node -> Prop :=
| of_line fs x : field_child fs (At "value" 0) = Some x -> expression_of (Other "Expr" fs) x
| of_itself n : kind_of n <> "Expr" -> expression_of n n.
(** [p]: the node around the use; [allowed]: the expressions that may replace it;
    [finish]: applied to the replacement; [note]: put above the line if the use cannot be
    converted; [old]: the use. *)
Inductive effect (p : node) (allowed : list string) (finish : node -> node) (note : list node) (old : node)
  : answer -> reply -> list request -> mark -> Prop :=
| eff_deleted : kind_of p = "Expr" -> effect p allowed finish note old ADelete (Reply VNone) [] Converted
| eff_kept : effect p allowed finish note old AUnchange (Reply (VNode old)) [] Converted
| eff_withdrawn : effect p allowed finish note old AMisidentify (Reply (VNode old)) [] NotTorch
| eff_rewritten before line x : expression_of line x -> In (kind_of x) allowed -> (no_room p -> for_the_line before = []) ->
    effect p allowed finish note old (ANodes (before ++ [line])) (Reply (VNode (finish x))) [ask p before] Converted
| eff_used_value : kind_of p <> "Expr" -> effect p allowed finish note old ADelete (Reply (VNode old)) [([], note)] NotConverted
| eff_no_answer : effect p allowed finish note old ANothing (Reply (VNode old)) [([], note)] NotConverted
| eff_empty : effect p allowed finish note old (ANodes []) (Reply (VNode old)) [([], note)] NotConverted
| eff_wrong_kind before line : (forall x, expression_of line x -> ~ In (kind_of x) allowed) ->
    effect p allowed finish note old (ANodes (before ++ [line])) (Reply (VNode old)) [([], note)] NotConverted
| eff_no_room before line x : expression_of line x -> In (kind_of x) allowed -> no_room p -> for_the_line before <> [] ->
    effect p allowed finish note old (ANodes (before ++ [line])) (Reply (VNode old)) [ask p before; ([], note)] NotConverted.

(** What may replace a call, a method call, an attribute of a value. *)
Definition for_call : list string :=
  ["Call"; "Name"; "Constant"; "Attribute"; "Compare"; "BinOp"; "UnaryOp"; "Tuple"; "Assert"; "Subscript"].
Definition for_method : list string :=
  ["Call"; "Name"; "Constant"; "Attribute"; "Subscript"; "BinOp"; "Assert"; "Tuple"; "Compare"].
Definition for_attribute : list string :=
  ["Call"; "Attribute"; "Name"; "Constant"; "Compare"; "BinOp"; "UnaryOp"; "Tuple"; "Assert"].
(** The remark put above a line that was not converted. *)
Definition remark (what : string) : node :=
  Other "Expr" [One "value" (Other "Constant" [Data "value"
    ("'Not Support auto convert " ++ what ++ ", please judge whether it is Pytorch API and convert by yourself'")])].
(** A first argument [self] is not shown to the matcher and put back. *)
Definition hides_self (args : list node) : bool := match args with Name i :: _ => String.eqb i "self" | _ => false end.
Definition shown (args : list node) : list node := if hides_self args then tl args else args.
Definition put_back (args : list node) (n : node) : node :=
  match n with Call f a k => Call f (if hides_self args then Name "self" :: a else a) k | n => n end.

(** ** Names of a package that are not called *)
Inductive without_row (st : list frame) (p : node) (n : node) (api origin : string) (w : M)
  : reply -> list request -> mark -> M -> Prop :=
| short_name : (List.length (split_on "."%char api) < 3)%nat -> without_row st p n api origin w (Reply (VNode n)) [] NotConverted w
| owner_unknown : (3 <= List.length (split_on "."%char api))%nat ->
    Lookup.get_api_matcher (join "." (removelast (split_on "."%char api))) = Lookup.LNone ->
    without_row st p n api origin w (Reply (VNode n)) [] NotConverted w
| owner_unchanged a c r l w' : (3 <= List.length (split_on "."%char api))%nat ->
    Lookup.get_api_matcher (join "." (removelast (split_on "."%char api))) = Lookup.LMatcher a c r ->
    api_of e (MkMatcher a c r origin) st w = Ok (Some "unchange", l, w') ->
    without_row st p n api origin w (Reply (VNode n)) [ask p l] Converted w'
| owner_renamed a c r q l w' new : (3 <= List.length (split_on "."%char api))%nat ->
    Lookup.get_api_matcher (join "." (removelast (split_on "."%char api))) = Lookup.LMatcher a c r ->
    api_of e (MkMatcher a c r origin) st w = Ok (Some q, l, w') -> q <> "unchange" ->
    parse_expr e (q ++ "." ++ last (split_on "."%char api) "") = Ok new ->
    without_row st p n api origin w (Reply (VNode new)) [ask p l] Converted w'.
Inductive name_effect (st : list frame) (p : node) (n : node) (api origin : string) (w : M)
  : reply -> option string -> list request -> mark -> M -> Prop :=
| name_no_row r q m w' : Lookup.attribute_lookup api = Lookup.LNone -> without_row st p n api origin w r q m w' ->
    name_effect st p n api origin w r None q m w'
| name_no_answer a c row t l w1 r q m w' : Lookup.attribute_lookup api = Lookup.LMatcher a c row ->
    api_of e (MkMatcher a c row origin) st w = Ok (t, l, w1) -> (t = None \/ t = Some "") ->
    without_row st p n api origin w1 r q m w' -> name_effect st p n api origin w r None (ask p l :: q) m w'
| name_deleted a c row l w' : Lookup.attribute_lookup api = Lookup.LMatcher a c row ->
    api_of e (MkMatcher a c row origin) st w = Ok (Some "delete", l, w') -> kind_of p = "Expr" ->
    name_effect st p n api origin w (Reply VNone) None [ask p l] Converted w'
| name_undecorated a c row l w' : Lookup.attribute_lookup api = Lookup.LMatcher a c row ->
    api_of e (MkMatcher a c row origin) st w = Ok (Some "delete", l, w') -> kind_of p = "FunctionDef" -> p_field (here st) = "decorator_list" ->
    name_effect st p n api origin w Unlisted None [ask p l] Converted w'
| name_undeletable a c row l w1 r q m w' : Lookup.attribute_lookup api = Lookup.LMatcher a c row ->
    api_of e (MkMatcher a c row origin) st w = Ok (Some "delete", l, w1) ->
    kind_of p <> "Expr" -> ~ (kind_of p = "FunctionDef" /\ p_field (here st) = "decorator_list") ->
    without_row st p n api origin w1 r q m w' -> name_effect st p n api origin w r None (ask p l :: q) m w'
| name_withdrawn a c row l w' : Lookup.attribute_lookup api = Lookup.LMatcher a c row ->
    api_of e (MkMatcher a c row origin) st w = Ok (Some "misidentify", l, w') ->
    name_effect st p n api origin w (Reply (VNode n)) None [ask p l] NotTorch w'
| name_kept a c row l w' : Lookup.attribute_lookup api = Lookup.LMatcher a c row ->
    api_of e (MkMatcher a c row origin) st w = Ok (Some "unchange", l, w') ->
    name_effect st p n api origin w (Reply (VNode n)) None [ask p l] Converted w'
| name_renamed a c row t l w' new : Lookup.attribute_lookup api = Lookup.LMatcher a c row ->
    api_of e (MkMatcher a c row origin) st w = Ok (Some t, l, w') -> ~ In t [""; "delete"; "misidentify"; "unchange"] ->
    parse_expr e t = Ok new ->
    name_effect st p n api origin w (Reply (VNode new)) (Some t) [ask p l] Converted w'.
End Effect.
