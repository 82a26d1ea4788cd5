(** Model of the matcher classes of paconvert/api_matcher.py that are not instances of
    the [generate_code] language of Generate.v: they override the argument parsing, loop
    over the arguments or print Python lists.  Definitions only.

    The text handed to [ast.parse] is the result; parsing it is not modelled. *)
From Verif Require Import PyStr PyDict UtilsFile Ast Args.

(** What [get_paddle_nodes] / [get_paddle_class_nodes] gives back: code (and whether
    helper code was enabled), [None], ["misidentify"], ["unchange"], or an exception. *)
Inductive answer :=
| Produce (helper : bool) (s : string)
| NoAnswer
| NotThisApi
| Leave (helper : bool)
| Raises (exception : string).

(** api_matcher.py:5476-5486 and 5958-5968: [**mapping] gives [None], any name is
    accepted ([allow_none] is [False] in both callers, base.py:566). *)
Fixpoint loose_kwargs (kwargs : list kwnode) (t : table) : option table :=
  match kwargs with
  | [] => Some t
  | n :: r =>
      match kw_arg n with
      | None => None
      | Some k => loose_kwargs r (dset key_eqb (Some k) (text (kw_value n)) t)
      end
  end.
(** api_matcher.py:5471-5474 and 5953-5956: the i-th argument under the i-th name. *)
Fixpoint loose_args (names : list string) (args : list expr) (t : table) : table :=
  match names, args with
  | k :: ns, a :: r => loose_args ns r (dset key_eqb (Some k) (text a) t)
  | _, _ => t
  end.

(** api_matcher.py:5463-5488 [WeightsMatcher.parse_args_and_kwargs] *)
Definition parse_loosely (e : entry) (args : list expr) (kwargs : list kwnode) : parsed :=
  if (List.length (args_list e) <? List.length args)%nat then Misidentified
  else match loose_kwargs kwargs (loose_args (args_list e) args []) with
       | None => Unsupported
       | Some t => Bound t
       end.

(** api_matcher.py:5457-5461 [WeightsMatcher.generate_code]; [True] prints as "True". *)
Definition weights_table (t : table) : table :=
  let chosen := match dget key_eqb (Some "weights") t with
                | Some w => negb (String.eqb w "") && negb (String.eqb w "None")
                | None => false
                end in
  let t1 := if dmem key_eqb (Some "weights") t then ddel key_eqb (Some "weights") t else t in
  if chosen then dset key_eqb (Some "pretrained") "True" t1 else t1.
Definition weights_code (e : entry) (api fresh : string) (t : table) : string :=
  generic_code e api fresh (weights_table t).
(** base.py:566-576 [BaseMatcher.get_paddle_nodes] for [WeightsMatcher] *)
Definition weights_nodes (e : entry) (api fresh : string) (args : list expr) (kwargs : list kwnode) : answer :=
  match parse_loosely e args kwargs with
  | Bound t => Produce false (weights_code e api fresh t)
  | Misidentified => NotThisApi
  | _ => NoAnswer
  end.

(** api_matcher.py:5941-5969 [CUDAAndCppExtensionMatcher], base.py:566-576 *)
Definition extension_nodes (e : entry) (api fresh : string) (args : list expr) (kwargs : list kwnode) : answer :=
  if (List.length args + List.length kwargs <? min_input_args e)%nat then NotThisApi
  else match parse_loosely e args kwargs with
       | Bound t => Produce false (generic_code e api fresh t)
       | Misidentified => NotThisApi
       | _ => NoAnswer
       end.

(** [d[new] = d.pop(old)] for a present key *)
Definition rename_key (old new v : string) (t : table) : table :=
  dset key_eqb (Some new) v (ddel key_eqb (Some old) t).

(** api_matcher.py:1350-1382 [TensorMaxMatcher.get_paddle_class_nodes] with [op] = "max",
    1413-1445 [TensorMinMatcher] with [op] = "min"; [cls] is [self.paddleClass], the text
    of the receiver.  [len(None)] raises [TypeError]. *)
Definition extremum_nodes (op cls : string) (e : entry) (args : list expr) (kwargs : list kwnode) : answer :=
  let new_args := parse_args args in
  match parse_kwargs e false kwargs with
  | None => Raises "TypeError"
  | Some t =>
      if (2 <? List.length new_args + List.length t)%nat then NotThisApi
      else
        let pair arguments := "(" ++ cls ++ "." ++ op ++ "(" ++ arguments ++ "), " ++
                              cls ++ ".arg" ++ op ++ "(" ++ arguments ++ "))" in
        match dget key_eqb (Some "other") t with
        | Some v => Produce false (cls ++ "." ++ op ++ "imum(" ++
                      args_and_kwargs_to_str new_args (rename_key "other" "y" v t) ++ ")")
        | None =>
            match dget key_eqb (Some "dim") t with
            | Some v => Produce false (pair (args_and_kwargs_to_str new_args (rename_key "dim" "axis" v t)))
            | None =>
                if (1 <? List.length new_args)%nat
                then Produce false (pair (args_and_kwargs_to_str new_args t))
                else Produce true (cls ++ "._" ++ op ++ "(" ++ args_and_kwargs_to_str new_args t ++ ")")
            end
        end
  end.

(** api_matcher.py:1693-1701 [TensorRenameMatcher.get_paddle_class_nodes] *)
Definition rename_nodes (e : entry) (kwargs : list kwnode) : answer :=
  match parse_kwargs e false kwargs with
  | None => NoAnswer
  | Some t => if dmem key_eqb (Some "columns") t then NotThisApi else NoAnswer
  end.

(** api_matcher.py:3257-3272 [Chain_MatmulMatcher.get_paddle_nodes]; [new_args[0]] of an
    empty list raises. *)
Definition chain_nodes (e : entry) (args : list expr) (kwargs : list kwnode) : answer :=
  if match args with [a] => e_starred a | _ => false end then NoAnswer
  else
    match parse_kwargs e false kwargs with
    | None => NoAnswer
    | Some t =>
        match parse_args args with
        | [] => Raises "IndexError"
        | first :: rest =>
            let product := fold_left (fun code arg => code ++ " @ " ++ arg) rest first in
            match dget key_eqb (Some "out") t with
            | Some o => if String.eqb o "None" then Produce false product
                        else Produce false ("paddle.assign(" ++ product ++ ", output=" ++ o ++ ")")
            | None => Produce false product
            end
        end
    end.

(** api_matcher.py:450-464 [HubLoadMatcher.get_paddle_nodes] ([in None] raises) *)
Definition hub_load_nodes (e : entry) (api : string) (args : list expr) (kwargs : list kwnode) : answer :=
  match parse_kwargs e true kwargs with
  | None => Raises "TypeError"
  | Some t =>
      let t1 := match dget key_eqb (Some "repo_or_dir") t with
                | Some v => rename_key "repo_or_dir" "repo_dir" v t
                | None => t
                end in
      Produce false (call_text api (parse_args args) (drop_names ["trust_repo"; "verbose"; "skip_validation"] t1))
  end.

(** api_matcher.py:5551-5563 [TensorStftMatcher.get_paddle_class_nodes]; [api] is the
    attribute chain with the receiver in it ([None.pop] raises). *)
Definition stft_nodes (e : entry) (api : string) (args : list expr) (kwargs : list kwnode) : answer :=
  match parse_kwargs e true kwargs with
  | None => Raises "AttributeError"
  | Some t =>
      let c := call_text api (parse_args args) (drop_names ["return_complex"] t) in
      match dget key_eqb (Some "return_complex") t with
      | Some v => if String.eqb v "(False)" then Produce false (c ++ ".as_real()") else Produce false c
      | None => Produce false c
      end
  end.

(** api_matcher.py:627-629 [TRFMPreTrainedModelMatcher.get_paddle_nodes] *)
Definition pretrained_model_nodes (e : entry) (api : string) (args : list expr) (kwargs : list kwnode) : answer :=
  match change_api_nodes e api args kwargs with
  | Code s => Produce true s
  | TypeError => Raises "TypeError"
  end.

(** api_matcher.py:4237-4240 [Attribute2Func.get_paddle_class_attribute_nodes] *)
Definition attribute_to_call (api : string) : answer := Produce false (api ++ "()").

(** ** [str] of a Python list of strings *)
(** One hexadecimal digit. *)
Definition hex_digit (n : nat) : ascii := ascii_of_nat (if (n <? 10)%nat then 48 + n else 87 + n).
(** [repr] of one character between the quote characters [q].  Simplification: bytes of
    128 and above are parts of printable characters. *)
Definition repr_char (q c : ascii) : string :=
  if Ascii.eqb c "092" || Ascii.eqb c q then String "092" (String c "")
  else if Ascii.eqb c "009" then "\t"
  else if Ascii.eqb c "010" then "\n"
  else if Ascii.eqb c "013" then "\r"
  else if (nat_of_ascii c <? 32)%nat || (nat_of_ascii c =? 127)%nat
       then "\x" ++ String (hex_digit (nat_of_ascii c / 16)) (String (hex_digit (nat_of_ascii c mod 16)) "")
       else String c "".
Fixpoint repr_chars (q : ascii) (s : string) : string :=
  match s with
  | EmptyString => ""
  | String c r => repr_char q c ++ repr_chars q r
  end.
(** [repr(s)]: double quotes only if there is an apostrophe and no double quote. *)
Definition py_repr (s : string) : string :=
  let q := if mem_char quote1 s && negb (mem_char quote2 s) then quote2 else quote1 in
  String q (repr_chars q s ++ String q "").
(** [str(l)] *)
Definition str_of_list (l : list string) : string := "[" ++ join ", " (map py_repr l) ++ "]".

(** api_matcher.py:949-999 [MakeTMatcher.get_paddle_nodes].  [constant a] says whether [a]
    is an [ast.Constant]; [inner a] is what [astor.to_source(a.value).strip("\n")] prints
    for a starred [a]. *)
Definition make_shape (constant : expr -> bool) (inner : expr -> string) (args : list expr) : res string :=
  match args with
  | [] => Raise "IndexError"
  | [a] =>
      if constant a then Ok (py_replace (str_of_list (parse_args args)) "'" "")
      else if e_starred a then Ok (py_replace (inner a) "'" "")
      else Ok (py_replace (text a) "'" "")
  | _ => Ok (py_replace (str_of_list (parse_args args)) "'" "")
  end.
Definition get_or (t : table) (k d : string) : string :=
  match dget key_eqb (Some k) t with Some v => v | None => d end.
Definition make_tensor_nodes (constant : expr -> bool) (inner : expr -> string)
  (e : entry) (args : list expr) (kwargs : list kwnode) : answer :=
  match parse_kwargs e false kwargs with
  | None => Raises "TypeError"
  | Some t =>
      match (match dget key_eqb (Some "shape") t with
             | Some s => Ok s
             | None => make_shape constant inner args
             end) with
      | Raise x => Raises x
      | Ok shape =>
          match dget key_eqb (Some "device") t with
          | None => Raises "KeyError"
          | Some device =>
              let value := "paddle.uniform(" ++ shape ++ ", dtype=" ++ get_or t "dtype" "float32" ++
                           ", min=" ++ get_or t "low" "0" ++ ", max=" ++ get_or t "high" "1" ++
                           ").to(" ++ device ++ ")" in
              match dget key_eqb (Some "requires_grad") t with
              | None => Produce false (nls ++ value ++ nls)
              | Some g => Produce false (nls ++ "out = " ++ value ++ nls ++
                                         "out.stop_gradient = not " ++ g ++ nls ++ "out" ++ nls)
              end
          end
      end
  end.

(** api_matcher.py:4713-4728 [SetUpMatcher.generate_code], base.py:566-576; the second
    component is the global list CPP_EXTENSION_LIST.  The returned [ast.Module] is given
    back unchanged by the second [ast.parse]. *)
Definition setup_code (t : table) (extensions : list string) : answer * list string :=
  match dget key_eqb (Some "cmdclass") t with
  | Some c =>
      if contains "paddle.utils.cpp_extension.BuildExtension" c then
        match dget key_eqb (Some "name") t with
        | None => (Raises "KeyError", extensions)
        | Some n =>
            (Produce false ("paddle.utils.cpp_extension.setup(" ++
               kwargs_to_str (ddel key_eqb (Some "cmdclass") t) ++ ")"),
             (extensions ++ [strip_by (fun c => Ascii.eqb c quote2) n])%list)
        end
      else (NotThisApi, extensions)
  | None => (NotThisApi, extensions)
  end.
(** base.py:566-576 with a [generate_code] that answers [gen]. *)
Definition by_parsing {A} (e : entry) (args : list expr) (kwargs : list kwnode)
  (gen : table -> A) (none misidentify : A) (failure : A) : A :=
  match fst (parse_args_and_kwargs e false false args kwargs) with
  | Bound t => gen t
  | Unsupported => none
  | Misidentified => misidentify
  | IndexError => failure
  end.
Definition setup_nodes (e : entry) (args : list expr) (kwargs : list kwnode) (extensions : list string)
  : answer * list string :=
  by_parsing e args kwargs (fun t => setup_code t extensions)
    (NoAnswer, extensions) (NotThisApi, extensions) (Raises "IndexError", extensions).

(** api_matcher.py:3763-3769 [TensorSplitMatcher.generate_code] *)
Definition split_code (t : table) : answer :=
  match t with
  | [] => Raises "IndexError"
  | (_, v) :: _ => if contains """""""" v then NotThisApi else Leave true
  end.
Definition split_nodes (e : entry) (args : list expr) (kwargs : list kwnode) : answer :=
  by_parsing e args kwargs split_code NoAnswer NotThisApi (Raises "IndexError").

(** api_matcher.py:3860-3867 [FAApplyRotaryEmbFuncMatcher.generate_code] *)
Definition rotary_nodes (e : entry) (args : list expr) (kwargs : list kwnode) : answer :=
  by_parsing e args kwargs
    (fun t => Produce true (nls ++ "apply_rotary_position_embeddings(" ++ kwargs_to_str t ++ ")" ++ nls))
    NoAnswer NotThisApi (Raises "IndexError").

(** ** Two helper functions written into paddle_utils.py *)
(** api_matcher.py:3751-3756 [_Tensor_split] for an integer [split_size] on an axis of
    length [n]: sizes of the resulting pieces.  [paddle.split] with a number of sections
    requires that number to be positive and to divide the length (its documentation), and
    Python's [//] raises for 0. *)
Definition helper_split_sizes (n size : nat) : res (list nat) :=
  match size with
  | 0 => Raise "ZeroDivisionError"
  | _ => let sections := (n / size)%nat in
         if (sections =? 0)%nat then Raise "ValueError"
         else if (n mod sections =? 0)%nat then Ok (repeat (n / sections)%nat sections)
         else Raise "ValueError"
  end.
(** api_matcher.py:3832 the parameters of the helper [apply_rotary_position_embeddings] *)
Definition rotary_parameters : list string := ["x"; "cos"; "sin"].
