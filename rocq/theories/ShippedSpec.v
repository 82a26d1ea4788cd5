(** What the theorems about the shipped matchers assume of Python's parser and printer,
    and which texts replace calls (specification). *)
From Verif Require Import PyStr PyDict Args ArgsSpec GenericSpec TablesData Lookup Ast BasicPass Placed Generate GenerateSpec Shipped.

(** What a statement read by the parser contains: its value is an expression, and an
    [assert] statement consists of expressions.  No block owner stands inside. *)
Definition reads_expressions (parse : string -> res (list node)) : Prop :=
  forall text l n, parse text = Ok l -> In n l ->
    (forall v, child_at n (At "value" 0) = Some v -> simple v) /\
    (In (kind_of n) call_results -> simple n).

(** ** The text that replaces a call *)
Section Texts.
Variable t : tools.
(** The arguments of the call, as they are printed. *)
Definition call_with (callee : string) (dropped : list string) (args kws : list node) : string :=
  call callee (map text (exprs_of t args) ++ map written (filter (fun k => negb (named_in dropped k)) (keywords_of t kws)))%list.

(** [new_call r recv args kws tmp name code]: the row [r] makes [code] of a call with these
    arguments; [recv] is the text of the receiver of a method call, [tmp] a new variable
    name and [name] what goes into the table of converted APIs.
    - the package is replaced and the rest of the name stays;
    - the API is called by its paddle name with the same arguments;
    - arguments are renamed, dropped and added as the row says (C107). *)
Inductive new_call (r : row) (recv : option string) (args kws : list node) (tmp : string) : string -> string -> Prop :=
| new_package pkg target rest callee :
    r_matcher r = Some "ChangePrefixMatcher" -> r_name r = pkg ++ "." ++ rest -> contains pkg rest = false ->
    dget String.eqb pkg torch_package_mapping = Some target -> NoDup (map keyword_name kws) ->
    called_on (target ++ "." ++ rest) recv callee ->
    new_call r recv args kws tmp (target ++ "." ++ rest)
      (call_with callee ["layout"; "generator"; "memory_format"; "sparse_grad"; "foreach"] args kws)
| new_name api callee :
    r_matcher r = Some "ChangeAPIMatcher" -> paddle_api (r_entry r) = Some api -> NoDup (map keyword_name kws) ->
    called_on api recv callee ->
    new_call r recv args kws tmp api (call_with callee ["layout"; "generator"; "memory_format"] args kws)
| new_arguments api callee :
    r_matcher r = Some "GenericMatcher" -> paddle_api (r_entry r) = Some api ->
    fits (r_entry r) (exprs_of t args) (keywords_of t kws) ->
    (In (r_name r) two_for_one -> one_of_two (r_entry r) (exprs_of t args) (keywords_of t kws)) ->
    called_on api recv callee ->
    new_call r recv args kws tmp api
      (generic_text (r_entry r) callee tmp (final_arguments (r_entry r) (exprs_of t args) (keywords_of t kws))).
End Texts.

(** ** What the matchers are asked in the course of a conversion *)
Inductive question :=
| AskName (m : matcher) (st : list frame)
| AskAttribute (m : matcher) (n : node) (st : list frame)
| AskCall (m : matcher) (args kws : list node) (st : list frame)
| AskMethod (m : matcher) (f : node) (args kws : list node) (st : list frame).
(** The question is put in state [w]: its answer (a name is no node), the statements asked
    for besides and the state left. *)
Definition answered (t : tools) (q : question) (w : world) (a : answer) (l : list node) (w' : world) : Prop :=
  match q with
  | AskName m st => a = ANothing /\ exists p, shipped_api t m st w = Ok (p, l, w')
  | AskAttribute m n st => shipped_attribute t m n st w = Ok (a, l, w')
  | AskCall m args kws st => exists kept, shipped_call t m args kws st w = Ok (a, kept, l, w')
  | AskMethod m f args kws st => exists kept, shipped_method t m f args kws st w = Ok (a, kept, l, w')
  end.
Inductive asked (t : tools) : world -> list (question * world * answer * list node) -> world -> Prop :=
| asked_nothing w : asked t w [] w
| asked_more q w a l w1 qs w' : answered t q w a l w1 -> asked t w1 qs w' -> asked t w ((q, w, a, l) :: qs) w'.
(** The question is how to write a call, of which the table row [r] takes care; [recv]: the
    text of the receiver of a method call. *)
Definition about_call (t : tools) (q : question) (r : row) (recv : option string) (args kws : list node) : Prop :=
  exists api a c origin st, get_api_matcher api = LMatcher a c r /\
    match recv with
    | None => q = AskCall (MkMatcher a c r origin) args kws st
    | Some v => exists f, v = receiver_of t f /\ q = AskMethod (MkMatcher a c r origin) f args kws st
    end.

(** ** Which code needs the helper code of its class *)
(** Three rows need it for some calls only: without an axis, and for a device whose text
    is neither a number nor mentions cuda. *)
Definition helper_needed (r : row) (args : list expr) (kws : list kwnode) : Prop :=
  if mem_str (r_name r) ["torch.nn.LogSoftmax"; "torch.nn.functional.softmin"]
  then forall v, supplies (r_entry r) args kws "dim" v -> v = "None"
  else if String.eqb (r_name r) "torch.cpu.set_device"
  then forall v, supplies (r_entry r) args kws "device" v -> isdigit (strip_by (fun c => mem_char c "()") v) = false /\ ~ inside "cuda" v
  else True.
