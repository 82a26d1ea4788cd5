(** The second pass with the matchers of paconvert/api_matcher.py that the shipped tables
    name: the functions [BasicPass] takes as parameters.  Definitions only.

    What remains a parameter: Python's parser, [astor]'s printer and the texts of the
    helper functions. *)
From Verif Require Import PyStr PyDict UtilsFile Args TablesData Lookup Ast Walk ImportPass BasicPass
  Generate GenerateData.
From Verif Require Special.

(** ** What is taken as given *)
Record tools := MkTools {
  print : node -> string;                    (** [astor.to_source] *)
  parse : string -> res (list node);         (** [ast.parse(s).body] *)
  helper_code : string -> string;            (** class -> [generate_utils_code()], if it defines one *)
  helper_imports : list node;                (** base.py:523-533, nothing unless a directory is converted *)
  min_mode : bool                            (** [--mode min] *)
}.

(** State shared by the matchers: the counters of [get_unique_name], the code handed to
    [UtilsFileHelper.add_code] (see UtilsFile.v) and CPP_EXTENSION_LIST. *)
Record world := MkWorld { name_counters : ids; helpers : list string; cpp_extensions : list string }.

Section Shipped.
Variable t : tools.

(** [astor.to_source(n).strip("\n")] *)
Definition source (n : node) : string := strip_by (fun c => Ascii.eqb c nl) (print t n).

(** ** Arguments of a call *)
(** [isinstance(n, ast.Constant)], and with the value [None] *)
Definition is_constant (n : node) : bool := String.eqb (kind_of n) "Constant".
Definition is_none (n : node) : bool :=
  match n with Other "Constant" (Data "value" v :: _) => String.eqb v "None" | _ => false end.
Definition expr_of (n : node) : expr := MkExpr (String.eqb (kind_of n) "Starred") (is_none n) (print t n).
(** [ast.keyword(arg, value)]; [arg] is [None] for [**mapping] (no keyword is called
    None). *)
Definition keyword_name (n : node) : option string :=
  match n with Other "keyword" (Data "arg" k :: _) => if String.eqb k "None" then None else Some k | _ => None end.
Definition keyword_value (n : node) : node :=
  match child_at n (At "value" 0) with Some v => v | None => n end.
Definition keyword_of (n : node) : kwnode := MkKw (keyword_name n) (expr_of (keyword_value n)).
Definition exprs_of (l : list node) : list expr := map expr_of l.
Definition keywords_of (l : list node) : list kwnode := map keyword_of l.

(** base.py:356-371: what [kwargs.remove] leaves of the keywords of the call. *)
Fixpoint left_over (e : entry) (l : list node) : list node :=
  match l with
  | [] => []
  | n :: r =>
      match keyword_name n with
      | None => l
      | Some k =>
          if mem_str k (unsupport_args e) then
            if is_none (keyword_value n) then match r with [] => [] | m :: r' => m :: left_over e r' end else l
          else if negb (mem_str k (args_list e ++ overload_args_list e)%list) then l
          else n :: left_over e r
      end
  end.
Definition left_keywords (e : entry) (args kws : list node) : list node :=
  if existsb (fun a => String.eqb (kind_of a) "Starred") args then kws else left_over e kws.

(** ** Helper code *)
(** The classes named by the tables that define [generate_utils_code] or inherit a
    definition; base.py:510-511 answers [None] for the others. *)
Definition with_helper : list string :=
  ["PaddleFlagMatcher"; "TRFMPreTrainedModelMatcher"; "TransformsPositiveDefiniteTransformMatcher"; "TensorMaxMatcher";
   "TensorMinMatcher"; "FSoftMinMatcher"; "TensorSplitMatcher"; "FAApplyRotaryEmbFuncMatcher"; "NTupleMatcher";
   "Get_EnumMatcher"; "LogSoftmaxMatcher"; "SoftminMatcher"; "SymeigMatcher"; "CanCastMatcher"; "FloatPowerMatcher";
   "Device2StrMatcher"; "RpcRemoteMatcher"; "SetNumInteropThreadsMatcher"; "SetNumThreadsMatcher"; "VOCDetectionMatcher";
   "BoxesConvertMatcher"; "GRUCellMatcher"; "LSTMCellMatcher"; "RNNCellMatcher"; "OnnxExportMatcher";
   "SetPerProcessMemoryFractionMatcher"; "ForeachMatcher"; "ForeachErfcMatcher"; "ForeachErfc_Matcher";
   "ReduceScatterTensorMatcher"; "UtilsSetModuleMatcher"; "ForeachTensorMatcher"; "LinalgLuSolveMatcher"].
(** base.py:513-536 [enable_utils_code] of a class.  Simplification: a second request for
    the same code changes nothing (C08, C16), so one request per call of a method is
    recorded. *)
Definition enable (cls : string) (w : world) : list node * world :=
  if mem_str cls with_helper && negb (String.eqb (helper_code t cls) "")
  then (helper_imports t, MkWorld (name_counters w) (helpers w ++ [helper_code t cls])%list (cpp_extensions w))
  else ([], w).
Definition enable_if (b : bool) (cls : string) (w : world) : list node * world := if b then enable cls w else ([], w).

(** ** [get_paddle_api] *)
Definition has_name (e : entry) : bool := match paddle_api e with Some _ => true | None => false end.
(** api_matcher.py:93-97, 3363, 5941: the classes that assert that the row has a name *)
Definition asserting (cls : string) : bool :=
  match dget String.eqb cls generators with Some (b, _) => b | None => String.eqb cls "CUDAAndCppExtensionMatcher" end.
(** The name before a receiver is put into it: base.py:538-552, and its overrides
    api_matcher.py:95-97, 359-360, 368-378, 413-418, 468-469, 3869-3871. *)
Definition paddle_name (m : matcher) : res (option string) :=
  let e := r_entry (m_row m) in
  if String.eqb (m_class m) "ChangePrefixMatcher" then
    match change_prefix_name (min_mode t) (m_api m) (m_origin m) with
    | Some n => Ok (Some n)
    | None => Raise "AssertionError"
    end
  else if String.eqb (m_class m) "ChangeAPIMatcher" then
    if get_paddle_api_returns (m_api m) "ChangeAPIMatcher" e then Ok (paddle_api e) else Raise "AssertionError"
  else if String.eqb (m_class m) "EinopsTorchMatcher" then
    Ok (Some (py_replace (m_api m) "einops.layers.torch" "einops.layers.paddle"))
  else if String.eqb (m_class m) "TransformersGenericMatcher" then
    Ok (Some (py_replace (m_api m) "transformers." "paddleformers.transformers."))
  else if String.eqb (m_class m) "FAApplyRotaryEmbFuncMatcher" then Ok (Some "apply_rotary_position_embeddings")
  else if asserting (m_class m) && negb (has_name e) then Raise "AssertionError"
  else Ok (paddle_api e).
(** base.py:544-551 and api_matcher.py:3870: does asking for the name enable the helper
    code?  "enable_utils_code" stands in the rows of [PaddleFlagMatcher] only. *)
Definition name_enables (m : matcher) : bool :=
  String.eqb (m_class m) "FAApplyRotaryEmbFuncMatcher" || String.eqb (m_class m) "PaddleFlagMatcher"
  || (r_abstract (m_row m) && match paddle_api (r_entry (m_row m)) with Some p => negb (String.eqb p "") | None => false end).
Definition shipped_api (m : matcher) (st : list frame) (w : world) : res (option string * list node * world) :=
  let* p := paddle_name m in
  let (l, w) := enable_if (name_enables m) (m_class m) w in
  Ok (p, l, w).

(** ** The receiver *)
(** base.py:431-432 [func_str[0 : func_str.rfind(".")]] *)
Definition receiver_of (f : node) : string :=
  match rsplit1 "."%char (source f) with
  | Some (v, _) => v
  | None => substring 0 (String.length (source f) - 1) (source f)
  end.
(** base.py:434-442: the name with the receiver in it.  The simplification of
    [Generate.initial_api] applies. *)
Definition with_receiver (v api : string) : string :=
  render (flat_map (fun x => match x with Some s => lit s | None => receiver_piece (through_re v) end) (segments 0 "" api)).
(** [self.paddle_api], unset for a plain call; then [get_paddle_api()]. *)
Definition stored_name (recv : option string) (p : option string) : option string :=
  match recv, p with
  | Some v, Some a => if String.eqb a "" then None else Some (with_receiver v a)
  | _, _ => None
  end.
Definition asked_name (m : matcher) (recv : option string) (p : option string) : option string :=
  if mem_str (m_class m) ["EinopsTorchMatcher"; "TransformersGenericMatcher"; "FAApplyRotaryEmbFuncMatcher"; "ChangePrefixMatcher"]
  then p
  else match stored_name recv p with Some n => if String.eqb n "" then p else Some n | None => p end.
(** ["{}".format(x)] *)
Definition text_of (p : option string) : string := match p with Some p => p | None => "None" end.

(** ** The answers *)
Definition result : Type := answer * list node * world.
(** [ast.parse(code).body] *)
Definition as_nodes (code : string) (l : list node) (w : world) : res result :=
  let* ns := parse t code in Ok (ANodes ns, l, w).
Definition from_code (c : code) (w : world) : res result :=
  match c with Code s => as_nodes s [] w | TypeError => Raise "TypeError" end.
Definition from_answer (cls : string) (a : Special.answer) (w : world) : res result :=
  match a with
  | Special.Produce h s => let (l, w) := enable_if h cls w in as_nodes s l w
  | Special.NoAnswer => Ok (ANothing, [], w)
  | Special.NotThisApi => Ok (AMisidentify, [], w)
  | Special.Leave h => let (l, w) := enable_if h cls w in Ok (AUnchange, l, w)
  | Special.Raises x => Raise x
  end.

(** [generate] of Generate.v with the counters and the request for helper code it leaves. *)
Definition run_generator (c : ctx) (b : block) (d : table) (i : ids) : outcome (generated * ids * bool) :=
  run* (x, s) := exec c b (MkState [] [("kwargs", start d)] (initial_api c) i false) in
  match x with
  | Some (Text r) =>
      Ret (if String.eqb (render r) "misidentify" then Misidentify
           else if String.eqb (render r) "unchange" then Unchange
           else if String.eqb (render r) "" then Refused
           else Converted r (utils s), counters s, utils s)
  | Some (Bool true) => Fail "TypeError"
  | _ => Ret (Refused, counters s, utils s)
  end.
(** base.py:567-577, on the dictionary the arguments were parsed into. *)
Definition from_generator (m : matcher) (strict : bool) (b : block) (recv : option string) (d : table) (w : world) : res result :=
  let r := m_row m in
  let c := MkCtx (r_entry r) (m_api m) recv
             (match dget String.eqb (m_api m) convert_tensors with Some l => l | None => [] end) strict in
  match run_generator c b d (name_counters w) with
  | Fail x => Raise x
  | Ret (g, i, h) =>
      let (l, w) := enable_if h (m_class m) (MkWorld i (helpers w) (cpp_extensions w)) in
      match g with
      | Converted r _ => as_nodes (render r) l w
      | Misidentify => Ok (AMisidentify, l, w)
      | Unchange => Ok (AUnchange, l, w)
      | Refused => Ok (ANothing, l, w)
      end
  end.
Definition from_parsed (p : parsed) (w : world) (k : table -> res result) : res result :=
  match p with
  | Bound d => k d
  | Unsupported => Ok (ANothing, [], w)
  | Misidentified => Ok (AMisidentify, [], w)
  | IndexError => Raise "IndexError"
  end.

(** Classes whose [get_paddle_nodes] prints the call again (api_matcher.py:362, 380-389,
    420-432, 436-447, 471): the keywords they drop are in Args.v. *)
Definition printed_again (cls : string) : option (entry -> string -> list expr -> list kwnode -> code) :=
  dget String.eqb cls
    [("ChangePrefixMatcher", change_prefix_nodes); ("ChangeAPIMatcher", change_api_nodes);
     ("EinopsTorchMatcher", change_api_nodes); ("TransformersGenericMatcher", change_api_nodes);
     ("CheckPointMatcher", check_point_nodes)].

(** [get_paddle_nodes] of the classes with own code (Special.v), [None] for the others.
    [recv] is [None] for a plain call. *)
Definition special_nodes (m : matcher) (recv name : option string) (args kws : list node) (w : world) : option (res result) :=
  let e := r_entry (m_row m) in
  let cls := m_class m in
  let a := exprs_of args in
  let k := keywords_of kws in
  let api := text_of name in
  if String.eqb cls "HubLoadMatcher" then Some (from_answer cls (Special.hub_load_nodes e api a k) w)
  else if String.eqb cls "TRFMPreTrainedModelMatcher" then Some (from_answer cls (Special.pretrained_model_nodes e api a k) w)
  else if String.eqb cls "Chain_MatmulMatcher" then Some (from_answer cls (Special.chain_nodes e a k) w)
  else if String.eqb cls "MakeTMatcher" then
    let sole := match args with [x] => x | _ => Name "" end in
    Some (from_answer cls
      (Special.make_tensor_nodes (fun _ => is_constant sole) (fun _ => source (keyword_value sole)) e a k) w)
  else if String.eqb cls "SetUpMatcher" then
    let (x, exts) := Special.setup_nodes e a k (cpp_extensions w) in
    Some (from_answer cls x (MkWorld (name_counters w) (helpers w) exts))
  else if String.eqb cls "TensorSplitMatcher" then Some (from_answer cls (Special.split_nodes e a k) w)
  else if String.eqb cls "FAApplyRotaryEmbFuncMatcher" then Some (from_answer cls (Special.rotary_nodes e a k) w)
  else if String.eqb cls "WeightsMatcher" then
    Some (from_parsed (Special.parse_loosely e a k) w
            (fun d => from_generator m false g_GenericMatcher recv (Special.weights_table d) w))
  else if String.eqb cls "CUDAAndCppExtensionMatcher" then
    Some (if (List.length a + List.length k <? min_input_args e)%nat then Ok (AMisidentify, [], w)
          else from_parsed (Special.parse_loosely e a k) w (fun d => from_generator m true g_GenericMatcher recv d w))
  else None.

(** base.py:559-577 [BaseMatcher.get_paddle_nodes].  A class without [generate_code]
    inherits a static method with two parameters, which is called with one. *)
Definition base_nodes (m : matcher) (recv : option string) (args kws : list node) (w : world) : res result :=
  from_parsed (fst (parse_args_and_kwargs (r_entry (m_row m)) false false (exprs_of args) (keywords_of kws))) w
    (fun d => match dget String.eqb (m_class m) generators with
              | Some (strict, b) => from_generator m strict b recv d w
              | None => Raise "TypeError"
              end).
(** Does [get_paddle_nodes] of the class go through [parse_args_and_kwargs] of
    [BaseMatcher], which removes keywords from the call? *)
Definition removes_keywords (cls : string) : bool :=
  negb (mem_str cls ["ChangePrefixMatcher"; "ChangeAPIMatcher"; "EinopsTorchMatcher"; "TransformersGenericMatcher"; "CheckPointMatcher";
                     "HubLoadMatcher"; "TRFMPreTrainedModelMatcher"; "Chain_MatmulMatcher"; "MakeTMatcher"; "WeightsMatcher";
                     "CUDAAndCppExtensionMatcher"]).
(** [get_paddle_nodes] of any class; [name]: what [get_paddle_api()] answers. *)
Definition nodes_of (m : matcher) (recv name : option string) (args kws : list node) (w : world)
  : res (result * (list node * list node)) :=
  match printed_again (m_class m) with
  | Some f => let* r := from_code (f (r_entry (m_row m)) (text_of name) (exprs_of args) (keywords_of kws)) w in Ok (r, (args, kws))
  | None =>
      let kept := if removes_keywords (m_class m) then left_keywords (r_entry (m_row m)) args kws else kws in
      match special_nodes m recv name args kws w with
      | Some r => let* r := r in Ok (r, (args, kept))
      | None => let* r := base_nodes m recv args kws w in Ok (r, (args, kept))
      end
  end.
Definition in_order (x : res (result * (list node * list node)))
  : res (answer * (list node * list node) * list node * world) :=
  let* ((a, l, w), kept) := x in Ok (a, kept, l, w).

(** ** Plain calls *)
(** Simplification: [get_paddle_api] is evaluated before the arguments are parsed; which
    of two exceptions is raised is not distinguished by callers. *)
Definition shipped_call (m : matcher) (args kws : list node) (st : list frame) (w : world)
  : res (answer * (list node * list node) * list node * world) :=
  let* p := paddle_name m in
  in_order (nodes_of m None (asked_name m None p) args kws w).

(** ** Method calls *)
(** base.py:579-581 [get_paddle_class_nodes]; overrides: api_matcher.py:394-408
    [ChangePrefixMatcher], 1350-1382, 1412-1445 [TensorMaxMatcher], [TensorMinMatcher],
    1693-1701 [TensorRenameMatcher] (no [parse_func]), 5551-5563 [TensorStftMatcher]. *)
Definition shipped_method (m : matcher) (f : node) (args kws : list node) (st : list frame) (w : world)
  : res (answer * (list node * list node) * list node * world) :=
  let e := r_entry (m_row m) in
  let v := receiver_of f in
  let own x := in_order (let* r := from_answer (m_class m) x w in Ok (r, (args, kws))) in
  if String.eqb (m_class m) "TensorRenameMatcher" then own (Special.rename_nodes e (keywords_of kws))
  else if String.eqb (m_class m) "ChangePrefixMatcher" then
    let* name := if min_mode t then Ok (Some (source f))
                 else let* p := paddle_name m in Ok (stored_name (Some v) p) in
    in_order (let* r := from_code (change_prefix_nodes e (text_of name) (exprs_of args) (keywords_of kws)) w in Ok (r, (args, kws)))
  else
    let* p := paddle_name m in
    if String.eqb (m_class m) "TensorMaxMatcher" then own (Special.extremum_nodes "max" v e (exprs_of args) (keywords_of kws))
    else if String.eqb (m_class m) "TensorMinMatcher" then own (Special.extremum_nodes "min" v e (exprs_of args) (keywords_of kws))
    else if String.eqb (m_class m) "TensorStftMatcher" then
      own (Special.stft_nodes e (text_of (asked_name m (Some v) p)) (exprs_of args) (keywords_of kws))
    else in_order (nodes_of m (Some v) (asked_name m (Some v) p) args kws w).

(** ** Attributes of values *)
(** base.py:554-557 [get_paddle_class_attribute_nodes]; overrides: api_matcher.py:391-392,
    4237-4240, 5565-5566. *)
Definition shipped_attribute (m : matcher) (n : node) (st : list frame) (w : world) : res result :=
  if mem_str (m_class m) ["ChangePrefixMatcher"; "TensorStftMatcher"] then Ok (AUnchange, [], w)
  else
    let* p := paddle_name m in
    let (l, w) := enable_if (name_enables m) (m_class m) w in
    let name := text_of (stored_name (Some (receiver_of n)) p) in
    if String.eqb (m_class m) "Attribute2Func" then
      match Special.attribute_to_call name with
      | Special.Produce _ s => as_nodes s l w
      | _ => Ok (ANothing, l, w)
      end
    else as_nodes name l w.

(** ** The environment *)
(** base.py:219-229: the text mentions the name as a called or used module.
    Simplification: the name is read literally, not as a pattern. *)
Definition word_char (c : ascii) : bool := in_range 65 90 c || in_range 97 122 c || Ascii.eqb c "_".
Fixpoint called_inside (x s : string) : bool :=
  match s with
  | EmptyString => false
  | String c r => (negb (word_char c) && prefix (x ++ "(") r) || (negb (Ascii.eqb c nl) && called_inside x r)
  end.
Definition mentions (x : string) (n : node) : bool :=
  called_inside x (source n) || prefix (x ++ ".") (source n) || prefix (x ++ "(") (source n).
(** [ast.parse(s).body[0].value] *)
Definition parse_value (s : string) : res node :=
  let* l := parse t s in
  match l with
  | [] => Raise "IndexError"
  | x :: _ => match child_at x (At "value" 0) with Some v => Ok v | None => Raise "AttributeError" end
  end.

Definition shipped_env (imps : ist) : benv world :=
  MkBenv world imps mentions (fun n => contains "sys.path" (print t n)) parse_value
    shipped_api shipped_attribute shipped_call shipped_method.
End Shipped.
