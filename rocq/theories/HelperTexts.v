(** The texts that [generate_utils_code] of the matcher classes returns (paconvert/api_matcher.py),
    as syntax trees.  Output of tools/helpertexts.py; [ctx] fields are left out.
    [BoxesConvertMatcher] has one text per name that its rows give. *)
From Verif Require Import PyStr Ast.
Open Scope string_scope.
Open Scope list_scope.

(** api_matcher.py:337-344 [InferenceModeMatcher] *)
Definition helper_00 : list node :=
  [Other "FunctionDef" [Data "name" "empty_decorator"; One "args" (Other "arguments" [Many "posonlyargs" []; Many "args" [Other "arg" [Data "arg" "func"; Data "annotation" "None"]]; Data "vararg" "None"; Many "kwonlyargs" []; Many "kw_defaults" []; Data "kwarg" "None"; Many "defaults" []]); Many "body" [Other "Return" [One "value" (Name "func")]]; Many "decorator_list" []; Data "returns" "None"]].
(** api_matcher.py:476-487 [PaddleFlagMatcher] *)
Definition helper_01 : list node :=
  [Other "ClassDef" [Data "name" "PaddleFlag"; Many "bases" []; Many "keywords" []; Many "body" [Other "Assign" [Many "targets" [Name "cudnn_enabled"]; One "value" (Other "Constant" [Data "value" "True"])]; Other "Assign" [Many "targets" [Name "cudnn_benchmark"]; One "value" (Other "Constant" [Data "value" "False"])]; Other "Assign" [Many "targets" [Name "matmul_allow_tf32"]; One "value" (Other "Constant" [Data "value" "False"])]; Other "Assign" [Many "targets" [Name "cudnn_allow_tf32"]; One "value" (Other "Constant" [Data "value" "True"])]; Other "Assign" [Many "targets" [Name "cudnn_deterministic"]; One "value" (Other "Constant" [Data "value" "False"])]]; Many "decorator_list" []]].
(** api_matcher.py:581-626 [TRFMPreTrainedModelMatcher] *)
Definition helper_02 : list node :=
  [ImportFrom (Some "typing") [MkAlias "Optional" None] 0;
   Import [MkAlias "paddleformers" None];
   Other "FunctionDef" [Data "name" "_convert_head_mask_to_5d"; One "args" (Other "arguments" [Many "posonlyargs" []; Many "args" [Other "arg" [Data "arg" "head_mask"; Data "annotation" "None"]; Other "arg" [Data "arg" "num_hidden_layers"; Data "annotation" "None"]]; Data "vararg" "None"; Many "kwonlyargs" []; Many "kw_defaults" []; Data "kwarg" "None"; Many "defaults" []]); Many "body" [Other "If" [One "test" (Other "Compare" [One "left" (Call (Attribute (Name "head_mask") "dim") [] []); Many "ops" [Other "Eq" []]; Many "comparators" [Other "Constant" [Data "value" "1"]]]); Many "body" [Other "Assign" [Many "targets" [Name "head_mask"]; One "value" (Call (Attribute (Call (Attribute (Call (Attribute (Call (Attribute (Name "head_mask") "unsqueeze") [Other "Constant" [Data "value" "0"]] []) "unsqueeze") [Other "Constant" [Data "value" "0"]] []) "unsqueeze") [Other "UnaryOp" [One "op" (Other "USub" []); One "operand" (Other "Constant" [Data "value" "1"])]] []) "unsqueeze") [Other "UnaryOp" [One "op" (Other "USub" []); One "operand" (Other "Constant" [Data "value" "1"])]] [])]; Other "Assign" [Many "targets" [Name "head_mask"]; One "value" (Call (Attribute (Name "head_mask") "expand") [Name "num_hidden_layers"; Other "UnaryOp" [One "op" (Other "USub" []); One "operand" (Other "Constant" [Data "value" "1"])]; Other "UnaryOp" [One "op" (Other "USub" []); One "operand" (Other "Constant" [Data "value" "1"])]; Other "UnaryOp" [One "op" (Other "USub" []); One "operand" (Other "Constant" [Data "value" "1"])]; Other "UnaryOp" [One "op" (Other "USub" []); One "operand" (Other "Constant" [Data "value" "1"])]] [])]]; Many "orelse" [Other "If" [One "test" (Other "Compare" [One "left" (Call (Attribute (Name "head_mask") "dim") [] []); Many "ops" [Other "Eq" []]; Many "comparators" [Other "Constant" [Data "value" "2"]]]); Many "body" [Other "Assign" [Many "targets" [Name "head_mask"]; One "value" (Call (Attribute (Call (Attribute (Call (Attribute (Name "head_mask") "unsqueeze") [Other "Constant" [Data "value" "1"]] []) "unsqueeze") [Other "UnaryOp" [One "op" (Other "USub" []); One "operand" (Other "Constant" [Data "value" "1"])]] []) "unsqueeze") [Other "UnaryOp" [One "op" (Other "USub" []); One "operand" (Other "Constant" [Data "value" "1"])]] [])]]; Many "orelse" []]]]; Other "Assert" [One "test" (Other "Compare" [One "left" (Call (Attribute (Name "head_mask") "dim") [] []); Many "ops" [Other "Eq" []]; Many "comparators" [Other "Constant" [Data "value" "5"]]]); One "msg" (Other "JoinedStr" [Many "values" [Other "Constant" [Data "value" "'head_mask.dim != 5, instead '"]; Other "FormattedValue" [One "value" (Call (Attribute (Name "head_mask") "dim") [] []); Data "conversion" "-1"; Data "format_spec" "None"]]])]; Other "Assign" [Many "targets" [Name "head_mask"]; One "value" (Call (Attribute (Name "head_mask") "to") [] [Other "keyword" [Data "arg" "dtype"; One "value" (Call (Attribute (Name "paddle") "get_default_dtype") [] [])]])]; Other "Return" [One "value" (Name "head_mask")]]; Many "decorator_list" []; Data "returns" "None"];
   Other "FunctionDef" [Data "name" "_get_head_mask"; One "args" (Other "arguments" [Many "posonlyargs" []; Many "args" [Other "arg" [Data "arg" "self"; Data "annotation" "None"]; Other "arg" [Data "arg" "head_mask"; One "annotation" (Other "Subscript" [One "value" (Name "Optional"); One "slice" (Attribute (Name "paddle") "Tensor")])]; Other "arg" [Data "arg" "num_hidden_layers"; One "annotation" (Name "int")]; Other "arg" [Data "arg" "is_attention_chunked"; One "annotation" (Name "bool")]]; Data "vararg" "None"; Many "kwonlyargs" []; Many "kw_defaults" []; Data "kwarg" "None"; Many "defaults" [Other "Constant" [Data "value" "False"]]]); Many "body" [Other "If" [One "test" (Other "Compare" [One "left" (Name "head_mask"); Many "ops" [Other "IsNot" []]; Many "comparators" [Other "Constant" [Data "value" "None"]]]); Many "body" [Other "Assign" [Many "targets" [Name "head_mask"]; One "value" (Call (Name "_convert_head_mask_to_5d") [Name "head_mask"; Name "num_hidden_layers"] [])]; Other "If" [One "test" (Other "Compare" [One "left" (Name "is_attention_chunked"); Many "ops" [Other "Is" []]; Many "comparators" [Other "Constant" [Data "value" "True"]]]); Many "body" [Other "Assign" [Many "targets" [Name "head_mask"]; One "value" (Call (Attribute (Name "head_mask") "unsqueeze") [Other "UnaryOp" [One "op" (Other "USub" []); One "operand" (Other "Constant" [Data "value" "1"])]] [])]]; Many "orelse" []]]; Many "orelse" [Other "Assign" [Many "targets" [Name "head_mask"]; One "value" (Other "BinOp" [One "left" (Other "List" [Many "elts" [Other "Constant" [Data "value" "None"]]]); One "op" (Other "Mult" []); One "right" (Name "num_hidden_layers")])]]]; Other "Return" [One "value" (Name "head_mask")]]; Many "decorator_list" []; Data "returns" "None"];
   Other "Expr" [One "value" (Call (Name "setattr") [Attribute (Attribute (Attribute (Name "paddleformers") "transformers") "model_utils") "PretrainedModel"; Other "Constant" [Data "value" "'get_head_mask'"]; Name "_get_head_mask"] [])];
   Other "Assign" [Many "targets" [Name "original_generate"]; One "value" (Attribute (Attribute (Attribute (Attribute (Name "paddleformers") "generation") "utils") "GenerationMixin") "generate")];
   Other "FunctionDef" [Data "name" "_generate"; One "args" (Other "arguments" [Many "posonlyargs" []; Many "args" [Other "arg" [Data "arg" "self"; Data "annotation" "None"]; Other "arg" [Data "arg" "input_ids"; Data "annotation" "None"]]; One "vararg" (Other "arg" [Data "arg" "args"; Data "annotation" "None"]); Many "kwonlyargs" []; Many "kw_defaults" []; One "kwarg" (Other "arg" [Data "arg" "kwargs"; Data "annotation" "None"]); Many "defaults" []]); Many "body" [Other "Return" [One "value" (Call (Attribute (Name "paddle") "concat") [Other "Tuple" [Many "elts" [Name "input_ids"; Other "Subscript" [One "value" (Call (Name "original_generate") [Name "self"; Name "input_ids"; Other "Starred" [One "value" (Name "args")]] [Other "keyword" [Data "arg" "None"; One "value" (Name "kwargs")]]); One "slice" (Other "Constant" [Data "value" "0"])]]]] [Other "keyword" [Data "arg" "axis"; One "value" (Other "UnaryOp" [One "op" (Other "USub" []); One "operand" (Other "Constant" [Data "value" "1"])])]])]]; Many "decorator_list" []; Data "returns" "None"];
   Other "Expr" [One "value" (Call (Name "setattr") [Attribute (Attribute (Attribute (Name "paddleformers") "generation") "utils") "GenerationMixin"; Other "Constant" [Data "value" "'generate'"]; Name "_generate"] [])];
   Other "Expr" [One "value" (Call (Name "setattr") [Attribute (Attribute (Attribute (Name "paddleformers") "transformers") "model_utils") "PretrainedModel"; Other "Constant" [Data "value" "'device'"]; Other "Constant" [Data "value" "None"]] [])];
   Other "FunctionDef" [Data "name" "_post_init"; One "args" (Other "arguments" [Many "posonlyargs" []; Many "args" [Other "arg" [Data "arg" "self"; Data "annotation" "None"]]; Data "vararg" "None"; Many "kwonlyargs" []; Many "kw_defaults" []; Data "kwarg" "None"; Many "defaults" []]); Many "body" [Other "If" [One "test" (Call (Name "hasattr") [Name "self"; Other "Constant" [Data "value" "'init_weights'"]] []); Many "body" [Other "Expr" [One "value" (Call (Attribute (Name "self") "init_weights") [] [])]]; Many "orelse" [Other "If" [One "test" (Call (Name "hasattr") [Name "self"; Other "Constant" [Data "value" "'_init_weights'"]] []); Many "body" [Other "Expr" [One "value" (Call (Attribute (Name "self") "_init_weights") [] [])]]; Many "orelse" []]]]]; Many "decorator_list" []; Data "returns" "None"];
   Other "Expr" [One "value" (Call (Name "setattr") [Attribute (Attribute (Attribute (Name "paddleformers") "transformers") "model_utils") "PretrainedModel"; Other "Constant" [Data "value" "'post_init'"]; Name "_post_init"] [])]].
(** api_matcher.py:686-711 [TensorAddMatcher] *)
Definition helper_03 : list node :=
  [Other "FunctionDef" [Data "name" "_Tensor_add"; One "args" (Other "arguments" [Many "posonlyargs" []; Many "args" [Other "arg" [Data "arg" "self"; Data "annotation" "None"]]; One "vararg" (Other "arg" [Data "arg" "args"; Data "annotation" "None"]); Many "kwonlyargs" []; Many "kw_defaults" []; One "kwarg" (Other "arg" [Data "arg" "kwargs"; Data "annotation" "None"]); Many "defaults" []]); Many "body" [Other "If" [One "test" (Other "Compare" [One "left" (Other "Constant" [Data "value" "'other'"]); Many "ops" [Other "In" []]; Many "comparators" [Name "kwargs"]]); Many "body" [Other "Assign" [Many "targets" [Name "y"]; One "value" (Other "Subscript" [One "value" (Name "kwargs"); One "slice" (Other "Constant" [Data "value" "'other'"])])]]; Many "orelse" [Other "If" [One "test" (Other "Compare" [One "left" (Other "Constant" [Data "value" "'y'"]); Many "ops" [Other "In" []]; Many "comparators" [Name "kwargs"]]); Many "body" [Other "Assign" [Many "targets" [Name "y"]; One "value" (Other "Subscript" [One "value" (Name "kwargs"); One "slice" (Other "Constant" [Data "value" "'y'"])])]]; Many "orelse" [Other "Assign" [Many "targets" [Name "y"]; One "value" (Other "Subscript" [One "value" (Name "args"); One "slice" (Other "Constant" [Data "value" "0"])])]]]]]; Other "If" [One "test" (Other "Compare" [One "left" (Other "Constant" [Data "value" "'alpha'"]); Many "ops" [Other "In" []]; Many "comparators" [Name "kwargs"]]); Many "body" [Other "Assign" [Many "targets" [Name "alpha"]; One "value" (Other "Subscript" [One "value" (Name "kwargs"); One "slice" (Other "Constant" [Data "value" "'alpha'"])])]; Other "If" [One "test" (Other "Compare" [One "left" (Name "alpha"); Many "ops" [Other "NotEq" []]; Many "comparators" [Other "Constant" [Data "value" "1"]]]); Many "body" [Other "If" [One "test" (Other "UnaryOp" [One "op" (Other "Not" []); One "operand" (Call (Name "isinstance") [Name "y"; Attribute (Name "paddle") "Tensor"] [])]); Many "body" [Other "Assign" [Many "targets" [Name "y"]; One "value" (Call (Attribute (Name "paddle") "to_tensor") [Other "BinOp" [One "left" (Name "alpha"); One "op" (Other "Mult" []); One "right" (Name "y")]] [])]]; Many "orelse" [Other "Assign" [Many "targets" [Name "y"]; One "value" (Other "BinOp" [One "left" (Name "alpha"); One "op" (Other "Mult" []); One "right" (Name "y")])]]]]; Many "orelse" []]]; Many "orelse" [Other "If" [One "test" (Other "UnaryOp" [One "op" (Other "Not" []); One "operand" (Call (Name "isinstance") [Name "y"; Attribute (Name "paddle") "Tensor"] [])]); Many "body" [Other "Assign" [Many "targets" [Name "y"]; One "value" (Call (Attribute (Name "paddle") "to_tensor") [Name "y"] [])]]; Many "orelse" []]]]; Other "Return" [One "value" (Call (Attribute (Name "paddle") "add") [Name "self"; Name "y"] [])]]; Many "decorator_list" []; Data "returns" "None"];
   Other "Expr" [One "value" (Call (Name "setattr") [Attribute (Name "paddle") "Tensor"; Other "Constant" [Data "value" "'add'"]; Name "_Tensor_add"] [])]].
(** api_matcher.py:719-745 [TensorSubtractMatcher] *)
Definition helper_04 : list node :=
  [Other "FunctionDef" [Data "name" "_Tensor_sub"; One "args" (Other "arguments" [Many "posonlyargs" []; Many "args" [Other "arg" [Data "arg" "self"; Data "annotation" "None"]]; One "vararg" (Other "arg" [Data "arg" "args"; Data "annotation" "None"]); Many "kwonlyargs" []; Many "kw_defaults" []; One "kwarg" (Other "arg" [Data "arg" "kwargs"; Data "annotation" "None"]); Many "defaults" []]); Many "body" [Other "If" [One "test" (Other "Compare" [One "left" (Other "Constant" [Data "value" "'other'"]); Many "ops" [Other "In" []]; Many "comparators" [Name "kwargs"]]); Many "body" [Other "Assign" [Many "targets" [Name "y"]; One "value" (Other "Subscript" [One "value" (Name "kwargs"); One "slice" (Other "Constant" [Data "value" "'other'"])])]]; Many "orelse" [Other "If" [One "test" (Other "Compare" [One "left" (Other "Constant" [Data "value" "'y'"]); Many "ops" [Other "In" []]; Many "comparators" [Name "kwargs"]]); Many "body" [Other "Assign" [Many "targets" [Name "y"]; One "value" (Other "Subscript" [One "value" (Name "kwargs"); One "slice" (Other "Constant" [Data "value" "'y'"])])]]; Many "orelse" [Other "Assign" [Many "targets" [Name "y"]; One "value" (Other "Subscript" [One "value" (Name "args"); One "slice" (Other "Constant" [Data "value" "0"])])]]]]]; Other "If" [One "test" (Other "Compare" [One "left" (Other "Constant" [Data "value" "'alpha'"]); Many "ops" [Other "In" []]; Many "comparators" [Name "kwargs"]]); Many "body" [Other "Assign" [Many "targets" [Name "alpha"]; One "value" (Other "Subscript" [One "value" (Name "kwargs"); One "slice" (Other "Constant" [Data "value" "'alpha'"])])]; Other "If" [One "test" (Other "Compare" [One "left" (Name "alpha"); Many "ops" [Other "NotEq" []]; Many "comparators" [Other "Constant" [Data "value" "1"]]]); Many "body" [Other "If" [One "test" (Other "UnaryOp" [One "op" (Other "Not" []); One "operand" (Call (Name "isinstance") [Name "y"; Attribute (Name "paddle") "Tensor"] [])]); Many "body" [Other "Assign" [Many "targets" [Name "y"]; One "value" (Call (Attribute (Name "paddle") "to_tensor") [Other "BinOp" [One "left" (Name "alpha"); One "op" (Other "Mult" []); One "right" (Name "y")]] [])]]; Many "orelse" [Other "Assign" [Many "targets" [Name "y"]; One "value" (Other "BinOp" [One "left" (Name "alpha"); One "op" (Other "Mult" []); One "right" (Name "y")])]]]]; Many "orelse" []]]; Many "orelse" [Other "If" [One "test" (Other "UnaryOp" [One "op" (Other "Not" []); One "operand" (Call (Name "isinstance") [Name "y"; Attribute (Name "paddle") "Tensor"] [])]); Many "body" [Other "Assign" [Many "targets" [Name "y"]; One "value" (Call (Attribute (Name "paddle") "to_tensor") [Name "y"] [])]]; Many "orelse" []]]]; Other "Return" [One "value" (Call (Attribute (Name "paddle") "subtract") [Name "self"; Name "y"] [])]]; Many "decorator_list" []; Data "returns" "None"];
   Other "Expr" [One "value" (Call (Name "setattr") [Attribute (Name "paddle") "Tensor"; Other "Constant" [Data "value" "'sub'"]; Name "_Tensor_sub"] [])];
   Other "Expr" [One "value" (Call (Name "setattr") [Attribute (Name "paddle") "Tensor"; Other "Constant" [Data "value" "'subtract'"]; Name "_Tensor_sub"] [])]].
(** api_matcher.py:753-773 [TensorMultiplyMatcher] *)
Definition helper_05 : list node :=
  [Other "FunctionDef" [Data "name" "_Tensor_mul"; One "args" (Other "arguments" [Many "posonlyargs" []; Many "args" [Other "arg" [Data "arg" "self"; Data "annotation" "None"]]; One "vararg" (Other "arg" [Data "arg" "args"; Data "annotation" "None"]); Many "kwonlyargs" []; Many "kw_defaults" []; One "kwarg" (Other "arg" [Data "arg" "kwargs"; Data "annotation" "None"]); Many "defaults" []]); Many "body" [Other "If" [One "test" (Other "Compare" [One "left" (Other "Constant" [Data "value" "'other'"]); Many "ops" [Other "In" []]; Many "comparators" [Name "kwargs"]]); Many "body" [Other "Assign" [Many "targets" [Name "y"]; One "value" (Other "Subscript" [One "value" (Name "kwargs"); One "slice" (Other "Constant" [Data "value" "'other'"])])]]; Many "orelse" [Other "If" [One "test" (Other "Compare" [One "left" (Other "Constant" [Data "value" "'y'"]); Many "ops" [Other "In" []]; Many "comparators" [Name "kwargs"]]); Many "body" [Other "Assign" [Many "targets" [Name "y"]; One "value" (Other "Subscript" [One "value" (Name "kwargs"); One "slice" (Other "Constant" [Data "value" "'y'"])])]]; Many "orelse" [Other "Assign" [Many "targets" [Name "y"]; One "value" (Other "Subscript" [One "value" (Name "args"); One "slice" (Other "Constant" [Data "value" "0"])])]]]]]; Other "If" [One "test" (Other "UnaryOp" [One "op" (Other "Not" []); One "operand" (Call (Name "isinstance") [Name "y"; Attribute (Name "paddle") "Tensor"] [])]); Many "body" [Other "Assign" [Many "targets" [Name "y"]; One "value" (Call (Attribute (Name "paddle") "to_tensor") [Name "y"] [])]]; Many "orelse" []]; Other "Return" [One "value" (Call (Attribute (Name "paddle") "multiply") [Name "self"; Name "y"] [])]]; Many "decorator_list" []; Data "returns" "None"];
   Other "Expr" [One "value" (Call (Name "setattr") [Attribute (Name "paddle") "Tensor"; Other "Constant" [Data "value" "'mul'"]; Name "_Tensor_mul"] [])];
   Other "Expr" [One "value" (Call (Name "setattr") [Attribute (Name "paddle") "Tensor"; Other "Constant" [Data "value" "'multiply'"]; Name "_Tensor_mul"] [])]].
(** api_matcher.py:781-810 [TensorDivideMatcher] *)
Definition helper_06 : list node :=
  [Other "FunctionDef" [Data "name" "_Tensor_div"; One "args" (Other "arguments" [Many "posonlyargs" []; Many "args" [Other "arg" [Data "arg" "self"; Data "annotation" "None"]]; One "vararg" (Other "arg" [Data "arg" "args"; Data "annotation" "None"]); Many "kwonlyargs" []; Many "kw_defaults" []; One "kwarg" (Other "arg" [Data "arg" "kwargs"; Data "annotation" "None"]); Many "defaults" []]); Many "body" [Other "If" [One "test" (Other "Compare" [One "left" (Other "Constant" [Data "value" "'other'"]); Many "ops" [Other "In" []]; Many "comparators" [Name "kwargs"]]); Many "body" [Other "Assign" [Many "targets" [Name "y"]; One "value" (Other "Subscript" [One "value" (Name "kwargs"); One "slice" (Other "Constant" [Data "value" "'other'"])])]]; Many "orelse" [Other "If" [One "test" (Other "Compare" [One "left" (Other "Constant" [Data "value" "'y'"]); Many "ops" [Other "In" []]; Many "comparators" [Name "kwargs"]]); Many "body" [Other "Assign" [Many "targets" [Name "y"]; One "value" (Other "Subscript" [One "value" (Name "kwargs"); One "slice" (Other "Constant" [Data "value" "'y'"])])]]; Many "orelse" [Other "Assign" [Many "targets" [Name "y"]; One "value" (Other "Subscript" [One "value" (Name "args"); One "slice" (Other "Constant" [Data "value" "0"])])]]]]]; Other "If" [One "test" (Other "UnaryOp" [One "op" (Other "Not" []); One "operand" (Call (Name "isinstance") [Name "y"; Attribute (Name "paddle") "Tensor"] [])]); Many "body" [Other "Assign" [Many "targets" [Name "y"]; One "value" (Call (Attribute (Name "paddle") "to_tensor") [Name "y"] [])]]; Many "orelse" []]; Other "Assign" [Many "targets" [Name "res"]; One "value" (Call (Attribute (Name "paddle") "divide") [Name "self"; Name "y"] [])]; Other "If" [One "test" (Other "Compare" [One "left" (Other "Constant" [Data "value" "'rounding_mode'"]); Many "ops" [Other "In" []]; Many "comparators" [Name "kwargs"]]); Many "body" [Other "Assign" [Many "targets" [Name "rounding_mode"]; One "value" (Other "Subscript" [One "value" (Name "kwargs"); One "slice" (Other "Constant" [Data "value" "'rounding_mode'"])])]; Other "If" [One "test" (Other "Compare" [One "left" (Name "rounding_mode"); Many "ops" [Other "Eq" []]; Many "comparators" [Other "Constant" [Data "value" "'trunc'"]]]); Many "body" [Other "Assign" [Many "targets" [Name "res"]; One "value" (Call (Attribute (Name "paddle") "trunc") [Name "res"] [])]]; Many "orelse" [Other "If" [One "test" (Other "Compare" [One "left" (Name "rounding_mode"); Many "ops" [Other "Eq" []]; Many "comparators" [Other "Constant" [Data "value" "'floor'"]]]); Many "body" [Other "Assign" [Many "targets" [Name "res"]; One "value" (Call (Attribute (Name "paddle") "floor") [Name "res"] [])]]; Many "orelse" []]]]]; Many "orelse" []]; Other "Return" [One "value" (Name "res")]]; Many "decorator_list" []; Data "returns" "None"];
   Other "Expr" [One "value" (Call (Name "setattr") [Attribute (Name "paddle") "Tensor"; Other "Constant" [Data "value" "'div'"]; Name "_Tensor_div"] [])];
   Other "Expr" [One "value" (Call (Name "setattr") [Attribute (Name "paddle") "Tensor"; Other "Constant" [Data "value" "'divide'"]; Name "_Tensor_div"] [])]].
(** api_matcher.py:818-828 [TransposeMatcher] *)
Definition helper_07 : list node :=
  [Other "FunctionDef" [Data "name" "dim2perm"; One "args" (Other "arguments" [Many "posonlyargs" []; Many "args" [Other "arg" [Data "arg" "ndim"; Data "annotation" "None"]; Other "arg" [Data "arg" "dim0"; Data "annotation" "None"]; Other "arg" [Data "arg" "dim1"; Data "annotation" "None"]]; Data "vararg" "None"; Many "kwonlyargs" []; Many "kw_defaults" []; Data "kwarg" "None"; Many "defaults" []]); Many "body" [Other "Assign" [Many "targets" [Name "perm"]; One "value" (Call (Name "list") [Call (Name "range") [Name "ndim"] []] [])]; Other "Assign" [Many "targets" [Other "Tuple" [Many "elts" [Other "Subscript" [One "value" (Name "perm"); One "slice" (Name "dim0")]; Other "Subscript" [One "value" (Name "perm"); One "slice" (Name "dim1")]]]]; One "value" (Other "Tuple" [Many "elts" [Other "Subscript" [One "value" (Name "perm"); One "slice" (Name "dim1")]; Other "Subscript" [One "value" (Name "perm"); One "slice" (Name "dim0")]]])]; Other "Return" [One "value" (Name "perm")]]; Many "decorator_list" []; Data "returns" "None"]].
(** api_matcher.py:856-866 [TensorTransposeMatcher] *)
Definition helper_08 : list node :=
  [Other "FunctionDef" [Data "name" "dim2perm"; One "args" (Other "arguments" [Many "posonlyargs" []; Many "args" [Other "arg" [Data "arg" "ndim"; Data "annotation" "None"]; Other "arg" [Data "arg" "dim0"; Data "annotation" "None"]; Other "arg" [Data "arg" "dim1"; Data "annotation" "None"]]; Data "vararg" "None"; Many "kwonlyargs" []; Many "kw_defaults" []; Data "kwarg" "None"; Many "defaults" []]); Many "body" [Other "Assign" [Many "targets" [Name "perm"]; One "value" (Call (Name "list") [Call (Name "range") [Name "ndim"] []] [])]; Other "Assign" [Many "targets" [Other "Tuple" [Many "elts" [Other "Subscript" [One "value" (Name "perm"); One "slice" (Name "dim0")]; Other "Subscript" [One "value" (Name "perm"); One "slice" (Name "dim1")]]]]; One "value" (Other "Tuple" [Many "elts" [Other "Subscript" [One "value" (Name "perm"); One "slice" (Name "dim1")]; Other "Subscript" [One "value" (Name "perm"); One "slice" (Name "dim0")]]])]; Other "Return" [One "value" (Name "perm")]]; Many "decorator_list" []; Data "returns" "None"]].
(** api_matcher.py:899-912 [TransformsPositiveDefiniteTransformMatcher] *)
Definition helper_09 : list node :=
  [Other "ClassDef" [Data "name" "PositiveDefiniteTransform"; Many "bases" []; Many "keywords" []; Many "body" [Other "FunctionDef" [Data "name" "__call__"; One "args" (Other "arguments" [Many "posonlyargs" []; Many "args" [Other "arg" [Data "arg" "self"; Data "annotation" "None"]; Other "arg" [Data "arg" "x"; Data "annotation" "None"]]; Data "vararg" "None"; Many "kwonlyargs" []; Many "kw_defaults" []; Data "kwarg" "None"; Many "defaults" []]); Many "body" [Other "Assign" [Many "targets" [Name "x"]; One "value" (Other "BinOp" [One "left" (Call (Attribute (Name "x") "tril") [Other "UnaryOp" [One "op" (Other "USub" []); One "operand" (Other "Constant" [Data "value" "1"])]] []); One "op" (Other "Add" []); One "right" (Call (Attribute (Call (Attribute (Call (Attribute (Name "x") "diagonal") [] [Other "keyword" [Data "arg" "axis1"; One "value" (Other "UnaryOp" [One "op" (Other "USub" []); One "operand" (Other "Constant" [Data "value" "2"])])]; Other "keyword" [Data "arg" "axis2"; One "value" (Other "UnaryOp" [One "op" (Other "USub" []); One "operand" (Other "Constant" [Data "value" "1"])])]]) "exp") [] []) "diag_embed") [] [])])]; Other "Return" [One "value" (Other "BinOp" [One "left" (Name "x"); One "op" (Other "MatMult" []); One "right" (Attribute (Name "x") "T")])]]; Many "decorator_list" []; Data "returns" "None"]; Other "FunctionDef" [Data "name" "inv"; One "args" (Other "arguments" [Many "posonlyargs" []; Many "args" [Other "arg" [Data "arg" "self"; Data "annotation" "None"]; Other "arg" [Data "arg" "y"; Data "annotation" "None"]]; Data "vararg" "None"; Many "kwonlyargs" []; Many "kw_defaults" []; Data "kwarg" "None"; Many "defaults" []]); Many "body" [Other "Assign" [Many "targets" [Name "y"]; One "value" (Call (Attribute (Attribute (Name "paddle") "linalg") "cholesky") [Name "y"] [])]; Other "Return" [One "value" (Other "BinOp" [One "left" (Call (Attribute (Name "y") "tril") [Other "UnaryOp" [One "op" (Other "USub" []); One "operand" (Other "Constant" [Data "value" "1"])]] []); One "op" (Other "Add" []); One "right" (Call (Attribute (Call (Attribute (Call (Attribute (Name "y") "diagonal") [] [Other "keyword" [Data "arg" "axis1"; One "value" (Other "UnaryOp" [One "op" (Other "USub" []); One "operand" (Other "Constant" [Data "value" "2"])])]; Other "keyword" [Data "arg" "axis2"; One "value" (Other "UnaryOp" [One "op" (Other "USub" []); One "operand" (Other "Constant" [Data "value" "1"])])]]) "log") [] []) "diag_embed") [] [])])]]; Many "decorator_list" []; Data "returns" "None"]]; Many "decorator_list" []]].
(** api_matcher.py:1044-1066 [Device2StrBaseMatcher] *)
Definition helper_10 : list node :=
  [Other "FunctionDef" [Data "name" "device2str"; One "args" (Other "arguments" [Many "posonlyargs" []; Many "args" [Other "arg" [Data "arg" "type"; Data "annotation" "None"]; Other "arg" [Data "arg" "index"; Data "annotation" "None"]]; Data "vararg" "None"; Many "kwonlyargs" [Other "arg" [Data "arg" "device"; Data "annotation" "None"]]; Many "kw_defaults" [Other "Constant" [Data "value" "None"]]; Data "kwarg" "None"; Many "defaults" [Other "Constant" [Data "value" "None"]; Other "Constant" [Data "value" "None"]]]); Many "body" [Other "Assign" [Many "targets" [Name "type"]; One "value" (Other "IfExp" [One "test" (Name "device"); One "body" (Name "device"); One "orelse" (Name "type")])]; Other "If" [One "test" (Call (Name "isinstance") [Name "type"; Name "int"] []); Many "body" [Other "Assign" [Many "targets" [Name "type"]; One "value" (Other "JoinedStr" [Many "values" [Other "Constant" [Data "value" "'gpu:'"]; Other "FormattedValue" [One "value" (Name "type"); Data "conversion" "-1"; Data "format_spec" "None"]]])]]; Many "orelse" [Other "If" [One "test" (Call (Name "isinstance") [Name "type"; Name "str"] []); Many "body" [Other "If" [One "test" (Other "Compare" [One "left" (Other "Constant" [Data "value" "'cuda'"]); Many "ops" [Other "In" []]; Many "comparators" [Name "type"]]); Many "body" [Other "Assign" [Many "targets" [Name "type"]; One "value" (Call (Attribute (Name "type") "replace") [Other "Constant" [Data "value" "'cuda'"]; Other "Constant" [Data "value" "'gpu'"]] [])]]; Many "orelse" []]; Other "If" [One "test" (Other "Compare" [One "left" (Other "Constant" [Data "value" "'cpu'"]); Many "ops" [Other "In" []]; Many "comparators" [Name "type"]]); Many "body" [Other "Assign" [Many "targets" [Name "type"]; One "value" (Other "Constant" [Data "value" "'cpu'"])]]; Many "orelse" [Other "If" [One "test" (Other "Compare" [One "left" (Name "index"); Many "ops" [Other "IsNot" []]; Many "comparators" [Other "Constant" [Data "value" "None"]]]); Many "body" [Other "Assign" [Many "targets" [Name "type"]; One "value" (Other "JoinedStr" [Many "values" [Other "FormattedValue" [One "value" (Name "type"); Data "conversion" "-1"; Data "format_spec" "None"]; Other "Constant" [Data "value" "':'"]; Other "FormattedValue" [One "value" (Name "index"); Data "conversion" "-1"; Data "format_spec" "None"]]])]]; Many "orelse" []]]]]; Many "orelse" [Other "If" [One "test" (Other "BoolOp" [One "op" (Other "Or" []); Many "values" [Call (Name "isinstance") [Name "type"; Attribute (Name "paddle") "CPUPlace"] []; Other "Compare" [One "left" (Name "type"); Many "ops" [Other "Is" []]; Many "comparators" [Other "Constant" [Data "value" "None"]]]]]); Many "body" [Other "Assign" [Many "targets" [Name "type"]; One "value" (Other "Constant" [Data "value" "'cpu'"])]]; Many "orelse" [Other "If" [One "test" (Call (Name "isinstance") [Name "type"; Attribute (Name "paddle") "CUDAPlace"] []); Many "body" [Other "Assign" [Many "targets" [Name "type"]; One "value" (Other "JoinedStr" [Many "values" [Other "Constant" [Data "value" "'gpu:'"]; Other "FormattedValue" [One "value" (Call (Attribute (Name "type") "get_device_id") [] []); Data "conversion" "-1"; Data "format_spec" "None"]]])]]; Many "orelse" []]]]]]]]; Other "Return" [One "value" (Name "type")]]; Many "decorator_list" []; Data "returns" "None"]].
(** api_matcher.py:1239-1278 [MaxMatcher] *)
Definition helper_11 : list node :=
  [Other "FunctionDef" [Data "name" "paddle_max"; One "args" (Other "arguments" [Many "posonlyargs" []; Many "args" []; One "vararg" (Other "arg" [Data "arg" "args"; Data "annotation" "None"]); Many "kwonlyargs" []; Many "kw_defaults" []; One "kwarg" (Other "arg" [Data "arg" "kwargs"; Data "annotation" "None"]); Many "defaults" []]); Many "body" [Other "If" [One "test" (Other "Compare" [One "left" (Other "Constant" [Data "value" "'input'"]); Many "ops" [Other "In" []]; Many "comparators" [Name "kwargs"]]); Many "body" [Other "Assign" [Many "targets" [Other "Subscript" [One "value" (Name "kwargs"); One "slice" (Other "Constant" [Data "value" "'x'"])]]; One "value" (Call (Attribute (Name "kwargs") "pop") [Other "Constant" [Data "value" "'input'"]] [])]]; Many "orelse" []]; Other "Assign" [Many "targets" [Name "out_v"]; One "value" (Other "Constant" [Data "value" "None"])]; Other "If" [One "test" (Other "Compare" [One "left" (Other "Constant" [Data "value" "'out'"]); Many "ops" [Other "In" []]; Many "comparators" [Name "kwargs"]]); Many "body" [Other "Assign" [Many "targets" [Name "out_v"]; One "value" (Call (Attribute (Name "kwargs") "pop") [Other "Constant" [Data "value" "'out'"]] [])]]; Many "orelse" []]; Other "If" [One "test" (Other "Compare" [One "left" (Other "Constant" [Data "value" "'other'"]); Many "ops" [Other "In" []]; Many "comparators" [Name "kwargs"]]); Many "body" [Other "Assign" [Many "targets" [Other "Subscript" [One "value" (Name "kwargs"); One "slice" (Other "Constant" [Data "value" "'y'"])]]; One "value" (Call (Attribute (Name "kwargs") "pop") [Other "Constant" [Data "value" "'other'"]] [])]; Other "Assign" [Many "targets" [Name "ret"]; One "value" (Call (Attribute (Name "paddle") "maximum") [Other "Starred" [One "value" (Name "args")]] [Other "keyword" [Data "arg" "None"; One "value" (Name "kwargs")]])]]; Many "orelse" [Other "If" [One "test" (Other "BoolOp" [One "op" (Other "And" []); Many "values" [Other "Compare" [One "left" (Call (Name "len") [Name "args"] []); Many "ops" [Other "Eq" []]; Many "comparators" [Other "Constant" [Data "value" "2"]]]; Call (Name "isinstance") [Other "Subscript" [One "value" (Name "args"); One "slice" (Other "Constant" [Data "value" "1"])]; Attribute (Name "paddle") "Tensor"] []]]); Many "body" [Other "Assign" [Many "targets" [Name "ret"]; One "value" (Call (Attribute (Name "paddle") "maximum") [Other "Starred" [One "value" (Name "args")]] [Other "keyword" [Data "arg" "None"; One "value" (Name "kwargs")]])]]; Many "orelse" [Other "If" [One "test" (Other "Compare" [One "left" (Other "Constant" [Data "value" "'dim'"]); Many "ops" [Other "In" []]; Many "comparators" [Name "kwargs"]]); Many "body" [Other "Assign" [Many "targets" [Other "Subscript" [One "value" (Name "kwargs"); One "slice" (Other "Constant" [Data "value" "'axis'"])]]; One "value" (Call (Attribute (Name "kwargs") "pop") [Other "Constant" [Data "value" "'dim'"]] [])]]; Many "orelse" []]; Other "If" [One "test" (Other "BoolOp" [One "op" (Other "Or" []); Many "values" [Other "Compare" [One "left" (Other "Constant" [Data "value" "'axis'"]); Many "ops" [Other "In" []]; Many "comparators" [Name "kwargs"]]; Other "Compare" [One "left" (Call (Name "len") [Name "args"] []); Many "ops" [Other "GtE" []]; Many "comparators" [Other "Constant" [Data "value" "2"]]]]]); Many "body" [Other "If" [One "test" (Name "out_v"); Many "body" [Other "Assign" [Many "targets" [Name "ret"]; One "value" (Other "Tuple" [Many "elts" [Call (Attribute (Name "paddle") "max") [Other "Starred" [One "value" (Name "args")]] [Other "keyword" [Data "arg" "None"; One "value" (Name "kwargs")]]; Call (Attribute (Name "paddle") "argmax") [Other "Starred" [One "value" (Name "args")]] [Other "keyword" [Data "arg" "None"; One "value" (Name "kwargs")]]]])]; Other "Expr" [One "value" (Call (Attribute (Name "paddle") "assign") [Other "Subscript" [One "value" (Name "ret"); One "slice" (Other "Constant" [Data "value" "0"])]; Other "Subscript" [One "value" (Name "out_v"); One "slice" (Other "Constant" [Data "value" "0"])]] [])]; Other "Expr" [One "value" (Call (Attribute (Name "paddle") "assign") [Other "Subscript" [One "value" (Name "ret"); One "slice" (Other "Constant" [Data "value" "1"])]; Other "Subscript" [One "value" (Name "out_v"); One "slice" (Other "Constant" [Data "value" "1"])]] [])]; Other "Return" [One "value" (Name "out_v")]]; Many "orelse" [Other "Assign" [Many "targets" [Name "ret"]; One "value" (Other "Tuple" [Many "elts" [Call (Attribute (Name "paddle") "max") [Other "Starred" [One "value" (Name "args")]] [Other "keyword" [Data "arg" "None"; One "value" (Name "kwargs")]]; Call (Attribute (Name "paddle") "argmax") [Other "Starred" [One "value" (Name "args")]] [Other "keyword" [Data "arg" "None"; One "value" (Name "kwargs")]]]])]; Other "Return" [One "value" (Name "ret")]]]]; Many "orelse" [Other "Assign" [Many "targets" [Name "ret"]; One "value" (Call (Attribute (Name "paddle") "max") [Other "Starred" [One "value" (Name "args")]] [Other "keyword" [Data "arg" "None"; One "value" (Name "kwargs")]])]; Other "Return" [One "value" (Name "ret")]]]]]]]; Other "If" [One "test" (Name "out_v"); Many "body" [Other "Expr" [One "value" (Call (Attribute (Name "paddle") "assign") [Name "ret"; Name "out_v"] [])]; Other "Return" [One "value" (Name "out_v")]]; Many "orelse" [Other "Return" [One "value" (Name "ret")]]]]; Many "decorator_list" []; Data "returns" "None"]].
(** api_matcher.py:1282-1321 [MinMatcher] *)
Definition helper_12 : list node :=
  [Other "FunctionDef" [Data "name" "paddle_min"; One "args" (Other "arguments" [Many "posonlyargs" []; Many "args" []; One "vararg" (Other "arg" [Data "arg" "args"; Data "annotation" "None"]); Many "kwonlyargs" []; Many "kw_defaults" []; One "kwarg" (Other "arg" [Data "arg" "kwargs"; Data "annotation" "None"]); Many "defaults" []]); Many "body" [Other "If" [One "test" (Other "Compare" [One "left" (Other "Constant" [Data "value" "'input'"]); Many "ops" [Other "In" []]; Many "comparators" [Name "kwargs"]]); Many "body" [Other "Assign" [Many "targets" [Other "Subscript" [One "value" (Name "kwargs"); One "slice" (Other "Constant" [Data "value" "'x'"])]]; One "value" (Call (Attribute (Name "kwargs") "pop") [Other "Constant" [Data "value" "'input'"]] [])]]; Many "orelse" []]; Other "Assign" [Many "targets" [Name "out_v"]; One "value" (Other "Constant" [Data "value" "None"])]; Other "If" [One "test" (Other "Compare" [One "left" (Other "Constant" [Data "value" "'out'"]); Many "ops" [Other "In" []]; Many "comparators" [Name "kwargs"]]); Many "body" [Other "Assign" [Many "targets" [Name "out_v"]; One "value" (Call (Attribute (Name "kwargs") "pop") [Other "Constant" [Data "value" "'out'"]] [])]]; Many "orelse" []]; Other "If" [One "test" (Other "Compare" [One "left" (Other "Constant" [Data "value" "'other'"]); Many "ops" [Other "In" []]; Many "comparators" [Name "kwargs"]]); Many "body" [Other "Assign" [Many "targets" [Other "Subscript" [One "value" (Name "kwargs"); One "slice" (Other "Constant" [Data "value" "'y'"])]]; One "value" (Call (Attribute (Name "kwargs") "pop") [Other "Constant" [Data "value" "'other'"]] [])]; Other "Assign" [Many "targets" [Name "ret"]; One "value" (Call (Attribute (Name "paddle") "minimum") [Other "Starred" [One "value" (Name "args")]] [Other "keyword" [Data "arg" "None"; One "value" (Name "kwargs")]])]]; Many "orelse" [Other "If" [One "test" (Other "BoolOp" [One "op" (Other "And" []); Many "values" [Other "Compare" [One "left" (Call (Name "len") [Name "args"] []); Many "ops" [Other "Eq" []]; Many "comparators" [Other "Constant" [Data "value" "2"]]]; Call (Name "isinstance") [Other "Subscript" [One "value" (Name "args"); One "slice" (Other "Constant" [Data "value" "1"])]; Attribute (Name "paddle") "Tensor"] []]]); Many "body" [Other "Assign" [Many "targets" [Name "ret"]; One "value" (Call (Attribute (Name "paddle") "minimum") [Other "Starred" [One "value" (Name "args")]] [Other "keyword" [Data "arg" "None"; One "value" (Name "kwargs")]])]]; Many "orelse" [Other "If" [One "test" (Other "Compare" [One "left" (Other "Constant" [Data "value" "'dim'"]); Many "ops" [Other "In" []]; Many "comparators" [Name "kwargs"]]); Many "body" [Other "Assign" [Many "targets" [Other "Subscript" [One "value" (Name "kwargs"); One "slice" (Other "Constant" [Data "value" "'axis'"])]]; One "value" (Call (Attribute (Name "kwargs") "pop") [Other "Constant" [Data "value" "'dim'"]] [])]]; Many "orelse" []]; Other "If" [One "test" (Other "BoolOp" [One "op" (Other "Or" []); Many "values" [Other "Compare" [One "left" (Other "Constant" [Data "value" "'axis'"]); Many "ops" [Other "In" []]; Many "comparators" [Name "kwargs"]]; Other "Compare" [One "left" (Call (Name "len") [Name "args"] []); Many "ops" [Other "GtE" []]; Many "comparators" [Other "Constant" [Data "value" "2"]]]]]); Many "body" [Other "If" [One "test" (Name "out_v"); Many "body" [Other "Assign" [Many "targets" [Name "ret"]; One "value" (Other "Tuple" [Many "elts" [Call (Attribute (Name "paddle") "min") [Other "Starred" [One "value" (Name "args")]] [Other "keyword" [Data "arg" "None"; One "value" (Name "kwargs")]]; Call (Attribute (Name "paddle") "argmin") [Other "Starred" [One "value" (Name "args")]] [Other "keyword" [Data "arg" "None"; One "value" (Name "kwargs")]]]])]; Other "Expr" [One "value" (Call (Attribute (Name "paddle") "assign") [Other "Subscript" [One "value" (Name "ret"); One "slice" (Other "Constant" [Data "value" "0"])]; Other "Subscript" [One "value" (Name "out_v"); One "slice" (Other "Constant" [Data "value" "0"])]] [])]; Other "Expr" [One "value" (Call (Attribute (Name "paddle") "assign") [Other "Subscript" [One "value" (Name "ret"); One "slice" (Other "Constant" [Data "value" "1"])]; Other "Subscript" [One "value" (Name "out_v"); One "slice" (Other "Constant" [Data "value" "1"])]] [])]; Other "Return" [One "value" (Name "out_v")]]; Many "orelse" [Other "Assign" [Many "targets" [Name "ret"]; One "value" (Other "Tuple" [Many "elts" [Call (Attribute (Name "paddle") "min") [Other "Starred" [One "value" (Name "args")]] [Other "keyword" [Data "arg" "None"; One "value" (Name "kwargs")]]; Call (Attribute (Name "paddle") "argmin") [Other "Starred" [One "value" (Name "args")]] [Other "keyword" [Data "arg" "None"; One "value" (Name "kwargs")]]]])]; Other "Return" [One "value" (Name "ret")]]]]; Many "orelse" [Other "Assign" [Many "targets" [Name "ret"]; One "value" (Call (Attribute (Name "paddle") "min") [Other "Starred" [One "value" (Name "args")]] [Other "keyword" [Data "arg" "None"; One "value" (Name "kwargs")]])]; Other "Return" [One "value" (Name "ret")]]]]]]]; Other "If" [One "test" (Name "out_v"); Many "body" [Other "Expr" [One "value" (Call (Attribute (Name "paddle") "assign") [Name "ret"; Name "out_v"] [])]; Other "Return" [One "value" (Name "out_v")]]; Many "orelse" [Other "Return" [One "value" (Name "ret")]]]]; Many "decorator_list" []; Data "returns" "None"]].
(** api_matcher.py:1325-1348 [TensorMaxMatcher] *)
Definition helper_13 : list node :=
  [Other "FunctionDef" [Data "name" "_Tensor_max"; One "args" (Other "arguments" [Many "posonlyargs" []; Many "args" [Other "arg" [Data "arg" "self"; Data "annotation" "None"]]; One "vararg" (Other "arg" [Data "arg" "args"; Data "annotation" "None"]); Many "kwonlyargs" []; Many "kw_defaults" []; One "kwarg" (Other "arg" [Data "arg" "kwargs"; Data "annotation" "None"]); Many "defaults" []]); Many "body" [Other "If" [One "test" (Other "Compare" [One "left" (Other "Constant" [Data "value" "'other'"]); Many "ops" [Other "In" []]; Many "comparators" [Name "kwargs"]]); Many "body" [Other "Assign" [Many "targets" [Other "Subscript" [One "value" (Name "kwargs"); One "slice" (Other "Constant" [Data "value" "'y'"])]]; One "value" (Call (Attribute (Name "kwargs") "pop") [Other "Constant" [Data "value" "'other'"]] [])]; Other "Assign" [Many "targets" [Name "ret"]; One "value" (Call (Attribute (Name "paddle") "maximum") [Name "self"; Other "Starred" [One "value" (Name "args")]] [Other "keyword" [Data "arg" "None"; One "value" (Name "kwargs")]])]]; Many "orelse" [Other "If" [One "test" (Other "BoolOp" [One "op" (Other "And" []); Many "values" [Other "Compare" [One "left" (Call (Name "len") [Name "args"] []); Many "ops" [Other "Eq" []]; Many "comparators" [Other "Constant" [Data "value" "1"]]]; Call (Name "isinstance") [Other "Subscript" [One "value" (Name "args"); One "slice" (Other "Constant" [Data "value" "0"])]; Attribute (Name "paddle") "Tensor"] []]]); Many "body" [Other "Assign" [Many "targets" [Name "ret"]; One "value" (Call (Attribute (Name "paddle") "maximum") [Name "self"; Other "Starred" [One "value" (Name "args")]] [Other "keyword" [Data "arg" "None"; One "value" (Name "kwargs")]])]]; Many "orelse" [Other "If" [One "test" (Other "Compare" [One "left" (Other "Constant" [Data "value" "'dim'"]); Many "ops" [Other "In" []]; Many "comparators" [Name "kwargs"]]); Many "body" [Other "Assign" [Many "targets" [Other "Subscript" [One "value" (Name "kwargs"); One "slice" (Other "Constant" [Data "value" "'axis'"])]]; One "value" (Call (Attribute (Name "kwargs") "pop") [Other "Constant" [Data "value" "'dim'"]] [])]]; Many "orelse" []]; Other "If" [One "test" (Other "BoolOp" [One "op" (Other "Or" []); Many "values" [Other "Compare" [One "left" (Other "Constant" [Data "value" "'axis'"]); Many "ops" [Other "In" []]; Many "comparators" [Name "kwargs"]]; Other "Compare" [One "left" (Call (Name "len") [Name "args"] []); Many "ops" [Other "GtE" []]; Many "comparators" [Other "Constant" [Data "value" "1"]]]]]); Many "body" [Other "Assign" [Many "targets" [Name "ret"]; One "value" (Other "Tuple" [Many "elts" [Call (Attribute (Name "paddle") "max") [Name "self"; Other "Starred" [One "value" (Name "args")]] [Other "keyword" [Data "arg" "None"; One "value" (Name "kwargs")]]; Call (Attribute (Name "paddle") "argmax") [Name "self"; Other "Starred" [One "value" (Name "args")]] [Other "keyword" [Data "arg" "None"; One "value" (Name "kwargs")]]]])]]; Many "orelse" [Other "Assign" [Many "targets" [Name "ret"]; One "value" (Call (Attribute (Name "paddle") "max") [Name "self"; Other "Starred" [One "value" (Name "args")]] [Other "keyword" [Data "arg" "None"; One "value" (Name "kwargs")]])]]]]]]]; Other "Return" [One "value" (Name "ret")]]; Many "decorator_list" []; Data "returns" "None"];
   Other "Expr" [One "value" (Call (Name "setattr") [Attribute (Name "paddle") "Tensor"; Other "Constant" [Data "value" "'_max'"]; Name "_Tensor_max"] [])]].
(** api_matcher.py:1387-1410 [TensorMinMatcher] *)
Definition helper_14 : list node :=
  [Other "FunctionDef" [Data "name" "_Tensor_min"; One "args" (Other "arguments" [Many "posonlyargs" []; Many "args" [Other "arg" [Data "arg" "self"; Data "annotation" "None"]]; One "vararg" (Other "arg" [Data "arg" "args"; Data "annotation" "None"]); Many "kwonlyargs" []; Many "kw_defaults" []; One "kwarg" (Other "arg" [Data "arg" "kwargs"; Data "annotation" "None"]); Many "defaults" []]); Many "body" [Other "If" [One "test" (Other "Compare" [One "left" (Other "Constant" [Data "value" "'other'"]); Many "ops" [Other "In" []]; Many "comparators" [Name "kwargs"]]); Many "body" [Other "Assign" [Many "targets" [Other "Subscript" [One "value" (Name "kwargs"); One "slice" (Other "Constant" [Data "value" "'y'"])]]; One "value" (Call (Attribute (Name "kwargs") "pop") [Other "Constant" [Data "value" "'other'"]] [])]; Other "Assign" [Many "targets" [Name "ret"]; One "value" (Call (Attribute (Name "paddle") "minimum") [Name "self"; Other "Starred" [One "value" (Name "args")]] [Other "keyword" [Data "arg" "None"; One "value" (Name "kwargs")]])]]; Many "orelse" [Other "If" [One "test" (Other "BoolOp" [One "op" (Other "And" []); Many "values" [Other "Compare" [One "left" (Call (Name "len") [Name "args"] []); Many "ops" [Other "Eq" []]; Many "comparators" [Other "Constant" [Data "value" "1"]]]; Call (Name "isinstance") [Other "Subscript" [One "value" (Name "args"); One "slice" (Other "Constant" [Data "value" "0"])]; Attribute (Name "paddle") "Tensor"] []]]); Many "body" [Other "Assign" [Many "targets" [Name "ret"]; One "value" (Call (Attribute (Name "paddle") "minimum") [Name "self"; Other "Starred" [One "value" (Name "args")]] [Other "keyword" [Data "arg" "None"; One "value" (Name "kwargs")]])]]; Many "orelse" [Other "If" [One "test" (Other "Compare" [One "left" (Other "Constant" [Data "value" "'dim'"]); Many "ops" [Other "In" []]; Many "comparators" [Name "kwargs"]]); Many "body" [Other "Assign" [Many "targets" [Other "Subscript" [One "value" (Name "kwargs"); One "slice" (Other "Constant" [Data "value" "'axis'"])]]; One "value" (Call (Attribute (Name "kwargs") "pop") [Other "Constant" [Data "value" "'dim'"]] [])]]; Many "orelse" []]; Other "If" [One "test" (Other "BoolOp" [One "op" (Other "Or" []); Many "values" [Other "Compare" [One "left" (Other "Constant" [Data "value" "'axis'"]); Many "ops" [Other "In" []]; Many "comparators" [Name "kwargs"]]; Other "Compare" [One "left" (Call (Name "len") [Name "args"] []); Many "ops" [Other "GtE" []]; Many "comparators" [Other "Constant" [Data "value" "1"]]]]]); Many "body" [Other "Assign" [Many "targets" [Name "ret"]; One "value" (Other "Tuple" [Many "elts" [Call (Attribute (Name "paddle") "min") [Name "self"; Other "Starred" [One "value" (Name "args")]] [Other "keyword" [Data "arg" "None"; One "value" (Name "kwargs")]]; Call (Attribute (Name "paddle") "argmin") [Name "self"; Other "Starred" [One "value" (Name "args")]] [Other "keyword" [Data "arg" "None"; One "value" (Name "kwargs")]]]])]]; Many "orelse" [Other "Assign" [Many "targets" [Name "ret"]; One "value" (Call (Attribute (Name "paddle") "min") [Name "self"; Other "Starred" [One "value" (Name "args")]] [Other "keyword" [Data "arg" "None"; One "value" (Name "kwargs")]])]]]]]]]; Other "Return" [One "value" (Name "ret")]]; Many "decorator_list" []; Data "returns" "None"];
   Other "Expr" [One "value" (Call (Name "setattr") [Attribute (Name "paddle") "Tensor"; Other "Constant" [Data "value" "'_min'"]; Name "_Tensor_min"] [])]].
(** api_matcher.py:1652-1662 [ScatterReduceMatcher] *)
Definition helper_15 : list node :=
  [Other "FunctionDef" [Data "name" "get_reduce_type"; One "args" (Other "arguments" [Many "posonlyargs" []; Many "args" [Other "arg" [Data "arg" "type"; Data "annotation" "None"]]; Data "vararg" "None"; Many "kwonlyargs" []; Many "kw_defaults" []; Data "kwarg" "None"; Many "defaults" []]); Many "body" [Other "Assign" [Many "targets" [Name "map"]; One "value" (Other "Dict" [Many "keys" [Other "Constant" [Data "value" "'sum'"]; Other "Constant" [Data "value" "'prod'"]]; Many "values" [Other "Constant" [Data "value" "'add'"]; Other "Constant" [Data "value" "'multiply'"]]])]; Other "If" [One "test" (Other "BoolOp" [One "op" (Other "Or" []); Many "values" [Other "Compare" [One "left" (Name "type"); Many "ops" [Other "Eq" []]; Many "comparators" [Other "Constant" [Data "value" "'sum'"]]]; Other "Compare" [One "left" (Name "type"); Many "ops" [Other "Eq" []]; Many "comparators" [Other "Constant" [Data "value" "'prod'"]]]]]); Many "body" [Other "Assign" [Many "targets" [Name "type"]; One "value" (Other "Subscript" [One "value" (Name "map"); One "slice" (Name "type")])]]; Many "orelse" []]; Other "Return" [One "value" (Name "type")]]; Many "decorator_list" []; Data "returns" "None"]].
(** api_matcher.py:1955-1965 [SplitMatcher] *)
Definition helper_16 : list node :=
  [Other "FunctionDef" [Data "name" "paddle_split"; One "args" (Other "arguments" [Many "posonlyargs" []; Many "args" [Other "arg" [Data "arg" "x"; Data "annotation" "None"]; Other "arg" [Data "arg" "num_or_sections"; Data "annotation" "None"]; Other "arg" [Data "arg" "axis"; Data "annotation" "None"]]; Data "vararg" "None"; Many "kwonlyargs" []; Many "kw_defaults" []; Data "kwarg" "None"; Many "defaults" [Other "Constant" [Data "value" "0"]]]); Many "body" [Other "If" [One "test" (Call (Name "isinstance") [Name "num_or_sections"; Name "int"] []); Many "body" [Other "Return" [One "value" (Call (Attribute (Name "paddle") "split") [Name "x"; Other "BinOp" [One "left" (Other "Subscript" [One "value" (Attribute (Name "x") "shape"); One "slice" (Name "axis")]); One "op" (Other "FloorDiv" []); One "right" (Name "num_or_sections")]; Name "axis"] [])]]; Many "orelse" [Other "Return" [One "value" (Call (Attribute (Name "paddle") "split") [Name "x"; Name "num_or_sections"; Name "axis"] [])]]]]; Many "decorator_list" []; Data "returns" "None"]].
(** api_matcher.py:2407-2429 [TensorIndexCopyMatcher] *)
Definition helper_17 : list node :=
  [Import [MkAlias "numpy" (Some "np")];
   Other "FunctionDef" [Data "name" "_Tensor_index_copy_"; One "args" (Other "arguments" [Many "posonlyargs" []; Many "args" [Other "arg" [Data "arg" "self"; Data "annotation" "None"]; Other "arg" [Data "arg" "dim"; Data "annotation" "None"]; Other "arg" [Data "arg" "index"; Data "annotation" "None"]; Other "arg" [Data "arg" "source"; Data "annotation" "None"]]; Data "vararg" "None"; Many "kwonlyargs" []; Many "kw_defaults" []; Data "kwarg" "None"; Many "defaults" []]); Many "body" [Other "If" [One "test" (Other "Compare" [One "left" (Name "dim"); Many "ops" [Other "Eq" []]; Many "comparators" [Other "Constant" [Data "value" "0"]]]); Many "body" [Other "Return" [One "value" (Call (Attribute (Name "self") "scatter_") [Name "index"; Name "source"] [])]]; Many "orelse" []]; Other "Assign" [Many "targets" [Name "shape"]; One "value" (Attribute (Name "self") "shape")]; Other "Assign" [Many "targets" [Name "new_index"]; One "value" (Other "List" [Many "elts" []])]; Other "For" [One "target" (Name "i"); One "iter" (Call (Name "range") [Other "Constant" [Data "value" "0"]; Call (Attribute (Name "np") "prod") [Other "Subscript" [One "value" (Name "shape"); One "slice" (Other "Slice" [Data "lower" "None"; One "upper" (Name "dim"); Data "step" "None"])]] []] []); Many "body" [Other "Expr" [One "value" (Call (Attribute (Name "new_index") "append") [Other "BinOp" [One "left" (Name "index"); One "op" (Other "Add" []); One "right" (Other "BinOp" [One "left" (Name "i"); One "op" (Other "Mult" []); One "right" (Call (Name "len") [Name "index"] [])])]] [])]]; Many "orelse" []]; Other "Assign" [Many "targets" [Name "new_index"]; One "value" (Call (Attribute (Name "paddle") "concat") [Name "new_index"] [])]; Other "Assign" [Many "targets" [Name "new_self"]; One "value" (Call (Attribute (Name "self") "reshape_") [Other "BinOp" [One "left" (Other "List" [Many "elts" [Other "UnaryOp" [One "op" (Other "USub" []); One "operand" (Other "Constant" [Data "value" "1"])]]]); One "op" (Other "Add" []); One "right" (Other "Subscript" [One "value" (Name "shape"); One "slice" (Other "Slice" [One "lower" (Other "BinOp" [One "left" (Name "dim"); One "op" (Other "Add" []); One "right" (Other "Constant" [Data "value" "1"])]); Data "upper" "None"; Data "step" "None"])])]] [])]; Other "Assign" [Many "targets" [Name "new_source"]; One "value" (Call (Attribute (Name "source") "reshape") [Other "BinOp" [One "left" (Other "List" [Many "elts" [Other "UnaryOp" [One "op" (Other "USub" []); One "operand" (Other "Constant" [Data "value" "1"])]]]); One "op" (Other "Add" []); One "right" (Other "Subscript" [One "value" (Name "shape"); One "slice" (Other "Slice" [One "lower" (Other "BinOp" [One "left" (Name "dim"); One "op" (Other "Add" []); One "right" (Other "Constant" [Data "value" "1"])]); Data "upper" "None"; Data "step" "None"])])]] [])]; Other "Return" [One "value" (Call (Attribute (Call (Attribute (Name "new_self") "scatter_") [Name "new_index"; Name "new_source"] []) "reshape_") [Name "shape"] [])]]; Many "decorator_list" []; Data "returns" "None"];
   Other "Expr" [One "value" (Call (Name "setattr") [Attribute (Name "paddle") "Tensor"; Other "Constant" [Data "value" "'index_copy_'"]; Name "_Tensor_index_copy_"] [])]].
(** api_matcher.py:3015-3025 [FSoftMinMatcher] *)
Definition helper_18 : list node :=
  [Other "FunctionDef" [Data "name" "_get_softmin_dim"; One "args" (Other "arguments" [Many "posonlyargs" []; Many "args" [Other "arg" [Data "arg" "axis"; One "annotation" (Name "int")]]; Data "vararg" "None"; Many "kwonlyargs" []; Many "kw_defaults" []; Data "kwarg" "None"; Many "defaults" []]); Many "body" [Other "If" [One "test" (Other "BoolOp" [One "op" (Other "Or" []); Many "values" [Other "Compare" [One "left" (Name "axis"); Many "ops" [Other "Eq" []]; Many "comparators" [Other "Constant" [Data "value" "0"]]]; Other "Compare" [One "left" (Name "axis"); Many "ops" [Other "Eq" []]; Many "comparators" [Other "Constant" [Data "value" "1"]]]; Other "Compare" [One "left" (Name "axis"); Many "ops" [Other "Eq" []]; Many "comparators" [Other "Constant" [Data "value" "3"]]]]]); Many "body" [Other "Return" [One "value" (Other "Constant" [Data "value" "0"])]]; Many "orelse" [Other "Return" [One "value" (Other "Constant" [Data "value" "1"])]]]]; Many "decorator_list" []; One "returns" (Name "int")]].
(** api_matcher.py:3283-3299 [TensorReshapeMatcher] *)
Definition helper_19 : list node :=
  [Other "FunctionDef" [Data "name" "_Tensor_reshape"; One "args" (Other "arguments" [Many "posonlyargs" []; Many "args" [Other "arg" [Data "arg" "self"; Data "annotation" "None"]]; One "vararg" (Other "arg" [Data "arg" "args"; Data "annotation" "None"]); Many "kwonlyargs" []; Many "kw_defaults" []; One "kwarg" (Other "arg" [Data "arg" "kwargs"; Data "annotation" "None"]); Many "defaults" []]); Many "body" [Other "If" [One "test" (Name "args"); Many "body" [Other "If" [One "test" (Other "BoolOp" [One "op" (Other "And" []); Many "values" [Other "Compare" [One "left" (Call (Name "len") [Name "args"] []); Many "ops" [Other "Eq" []]; Many "comparators" [Other "Constant" [Data "value" "1"]]]; Call (Name "isinstance") [Other "Subscript" [One "value" (Name "args"); One "slice" (Other "Constant" [Data "value" "0"])]; Other "Tuple" [Many "elts" [Name "tuple"; Name "list"]]] []]]); Many "body" [Other "Return" [One "value" (Call (Attribute (Name "paddle") "reshape") [Name "self"; Other "Subscript" [One "value" (Name "args"); One "slice" (Other "Constant" [Data "value" "0"])]] [])]]; Many "orelse" [Other "Return" [One "value" (Call (Attribute (Name "paddle") "reshape") [Name "self"; Call (Name "list") [Name "args"] []] [])]]]]; Many "orelse" [Other "If" [One "test" (Name "kwargs"); Many "body" [Other "Assert" [One "test" (Other "Compare" [One "left" (Other "Constant" [Data "value" "'shape'"]); Many "ops" [Other "In" []]; Many "comparators" [Name "kwargs"]]); Data "msg" "None"]; Other "Return" [One "value" (Call (Attribute (Name "paddle") "reshape") [Name "self"] [Other "keyword" [Data "arg" "shape"; One "value" (Other "Subscript" [One "value" (Name "kwargs"); One "slice" (Other "Constant" [Data "value" "'shape'"])])]])]]; Many "orelse" []]]]]; Many "decorator_list" []; Data "returns" "None"];
   Other "Expr" [One "value" (Call (Name "setattr") [Attribute (Name "paddle") "Tensor"; Other "Constant" [Data "value" "'reshape'"]; Name "_Tensor_reshape"] [])]].
(** api_matcher.py:3729-3741 [TensorTakeMatcher] *)
Definition helper_20 : list node :=
  [Other "FunctionDef" [Data "name" "_Tensor_take"; One "args" (Other "arguments" [Many "posonlyargs" []; Many "args" [Other "arg" [Data "arg" "self"; Data "annotation" "None"]]; One "vararg" (Other "arg" [Data "arg" "args"; Data "annotation" "None"]); Many "kwonlyargs" []; Many "kw_defaults" []; One "kwarg" (Other "arg" [Data "arg" "kwargs"; Data "annotation" "None"]); Many "defaults" []]); Many "body" [Other "If" [One "test" (Name "args"); Many "body" [Other "Return" [One "value" (Call (Attribute (Name "paddle") "take") [Name "self"; Other "Starred" [One "value" (Name "args")]] [])]]; Many "orelse" [Other "If" [One "test" (Name "kwargs"); Many "body" [Other "Return" [One "value" (Call (Attribute (Name "paddle") "take") [Name "self"] [Other "keyword" [Data "arg" "None"; One "value" (Name "kwargs")]])]]; Many "orelse" []]]]]; Many "decorator_list" []; Data "returns" "None"];
   Other "Expr" [One "value" (Call (Name "setattr") [Attribute (Name "paddle") "Tensor"; Other "Constant" [Data "value" "'take'"]; Name "_Tensor_take"] [])]].
(** api_matcher.py:3749-3761 [TensorSplitMatcher] *)
Definition helper_21 : list node :=
  [Other "FunctionDef" [Data "name" "_Tensor_split"; One "args" (Other "arguments" [Many "posonlyargs" []; Many "args" [Other "arg" [Data "arg" "self"; Data "annotation" "None"]; Other "arg" [Data "arg" "split_size"; Data "annotation" "None"]; Other "arg" [Data "arg" "dim"; Data "annotation" "None"]]; Data "vararg" "None"; Many "kwonlyargs" []; Many "kw_defaults" []; Data "kwarg" "None"; Many "defaults" [Other "Constant" [Data "value" "0"]]]); Many "body" [Other "If" [One "test" (Call (Name "isinstance") [Name "split_size"; Name "int"] []); Many "body" [Other "Return" [One "value" (Call (Attribute (Name "paddle") "split") [Name "self"; Other "BinOp" [One "left" (Other "Subscript" [One "value" (Attribute (Name "self") "shape"); One "slice" (Name "dim")]); One "op" (Other "FloorDiv" []); One "right" (Name "split_size")]; Name "dim"] [])]]; Many "orelse" [Other "Return" [One "value" (Call (Attribute (Name "paddle") "split") [Name "self"; Name "split_size"; Name "dim"] [])]]]]; Many "decorator_list" []; Data "returns" "None"];
   Other "Expr" [One "value" (Call (Name "setattr") [Attribute (Name "paddle") "Tensor"; Other "Constant" [Data "value" "'split'"]; Name "_Tensor_split"] [])]].
(** api_matcher.py:3773-3785 [TensorRoundMatcher] *)
Definition helper_22 : list node :=
  [Other "FunctionDef" [Data "name" "_Tensor_round"; One "args" (Other "arguments" [Many "posonlyargs" []; Many "args" [Other "arg" [Data "arg" "self"; Data "annotation" "None"]; Other "arg" [Data "arg" "decimals"; Data "annotation" "None"]]; Data "vararg" "None"; Many "kwonlyargs" []; Many "kw_defaults" []; Data "kwarg" "None"; Many "defaults" [Other "Constant" [Data "value" "None"]]]); Many "body" [Other "If" [One "test" (Name "decimals"); Many "body" [Other "Assign" [Many "targets" [Name "x"]; One "value" (Other "BinOp" [One "left" (Other "BinOp" [One "left" (Call (Attribute (Name "paddle") "abs") [Name "self"] []); One "op" (Other "FloorDiv" []); One "right" (Other "BinOp" [One "left" (Other "Constant" [Data "value" "10"]); One "op" (Other "Pow" []); One "right" (Other "UnaryOp" [One "op" (Other "USub" []); One "operand" (Name "decimals")])])]); One "op" (Other "Mult" []); One "right" (Other "BinOp" [One "left" (Other "Constant" [Data "value" "10"]); One "op" (Other "Pow" []); One "right" (Other "UnaryOp" [One "op" (Other "USub" []); One "operand" (Name "decimals")])])])]; Other "Return" [One "value" (Call (Attribute (Name "paddle") "where") [Other "Compare" [One "left" (Name "self"); Many "ops" [Other "Lt" []]; Many "comparators" [Other "Constant" [Data "value" "0"]]]; Other "UnaryOp" [One "op" (Other "USub" []); One "operand" (Name "x")]; Name "x"] [])]]; Many "orelse" []]; Other "Return" [One "value" (Call (Attribute (Name "paddle") "round") [Name "self"] [])]]; Many "decorator_list" []; Data "returns" "None"];
   Other "Expr" [One "value" (Call (Name "setattr") [Attribute (Name "paddle") "Tensor"; Other "Constant" [Data "value" "'round'"]; Name "_Tensor_round"] [])]].
(** api_matcher.py:3829-3858 [FAApplyRotaryEmbFuncMatcher] *)
Definition helper_23 : list node :=
  [Other "FunctionDef" [Data "name" "apply_rotary_position_embeddings"; One "args" (Other "arguments" [Many "posonlyargs" []; Many "args" [Other "arg" [Data "arg" "x"; Data "annotation" "None"]; Other "arg" [Data "arg" "cos"; Data "annotation" "None"]; Other "arg" [Data "arg" "sin"; Data "annotation" "None"]]; Data "vararg" "None"; Many "kwonlyargs" []; Many "kw_defaults" []; Data "kwarg" "None"; Many "defaults" []]); Many "body" [Other "If" [One "test" (Other "UnaryOp" [One "op" (Other "Not" []); One "operand" (Call (Name "isinstance") [Name "cos"; Attribute (Name "paddle") "Tensor"] [])]); Many "body" [Other "Assign" [Many "targets" [Name "cos"]; One "value" (Call (Attribute (Name "paddle") "to_tensor") [Name "cos"] [])]]; Many "orelse" []]; Other "If" [One "test" (Other "UnaryOp" [One "op" (Other "Not" []); One "operand" (Call (Name "isinstance") [Name "sin"; Attribute (Name "paddle") "Tensor"] [])]); Many "body" [Other "Assign" [Many "targets" [Name "sin"]; One "value" (Call (Attribute (Name "paddle") "to_tensor") [Name "sin"] [])]]; Many "orelse" []]; Other "FunctionDef" [Data "name" "_rotate_half"; One "args" (Other "arguments" [Many "posonlyargs" []; Many "args" [Other "arg" [Data "arg" "x"; Data "annotation" "None"]]; Data "vararg" "None"; Many "kwonlyargs" []; Many "kw_defaults" []; Data "kwarg" "None"; Many "defaults" []]); Many "body" [ImportFrom (Some "einops") [MkAlias "rearrange" None] 0; Other "Assign" [Many "targets" [Name "x"]; One "value" (Call (Name "rearrange") [Name "x"; Other "Constant" [Data "value" "'... (j d) -> ... j d'"]] [Other "keyword" [Data "arg" "j"; One "value" (Other "Constant" [Data "value" "2"])]])]; Other "Assign" [Many "targets" [Other "Tuple" [Many "elts" [Name "x1"; Name "x2"]]]; One "value" (Call (Attribute (Name "x") "unbind") [] [Other "keyword" [Data "arg" "axis"; One "value" (Other "UnaryOp" [One "op" (Other "USub" []); One "operand" (Other "Constant" [Data "value" "2"])])]])]; Other "Return" [One "value" (Call (Attribute (Name "paddle") "concat") [Other "Tuple" [Many "elts" [Other "UnaryOp" [One "op" (Other "USub" []); One "operand" (Name "x2")]; Name "x1"]]] [Other "keyword" [Data "arg" "axis"; One "value" (Other "UnaryOp" [One "op" (Other "USub" []); One "operand" (Other "Constant" [Data "value" "1"])])]])]]; Many "decorator_list" []; Data "returns" "None"]; Other "Assign" [Many "targets" [Name "cos"]; One "value" (Call (Attribute (Name "paddle") "concat") [Other "List" [Many "elts" [Name "cos"; Name "cos"]]] [Other "keyword" [Data "arg" "axis"; One "value" (Other "UnaryOp" [One "op" (Other "USub" []); One "operand" (Other "Constant" [Data "value" "1"])])]])]; Other "Assign" [Many "targets" [Name "cos"]; One "value" (Call (Attribute (Call (Attribute (Name "cos") "unsqueeze") [] [Other "keyword" [Data "arg" "axis"; One "value" (Other "Constant" [Data "value" "1"])]]) "unsqueeze") [] [Other "keyword" [Data "arg" "axis"; One "value" (Other "Constant" [Data "value" "0"])]])]; Other "Assign" [Many "targets" [Name "sin"]; One "value" (Call (Attribute (Name "paddle") "concat") [Other "List" [Many "elts" [Name "sin"; Name "sin"]]] [Other "keyword" [Data "arg" "axis"; One "value" (Other "UnaryOp" [One "op" (Other "USub" []); One "operand" (Other "Constant" [Data "value" "1"])])]])]; Other "Assign" [Many "targets" [Name "sin"]; One "value" (Call (Attribute (Call (Attribute (Name "sin") "unsqueeze") [] [Other "keyword" [Data "arg" "axis"; One "value" (Other "Constant" [Data "value" "1"])]]) "unsqueeze") [] [Other "keyword" [Data "arg" "axis"; One "value" (Other "Constant" [Data "value" "0"])]])]; Other "Assign" [Many "targets" [Other "Tuple" [Many "elts" [Name "t_rot"; Name "t_pass"]]]; One "value" (Other "Tuple" [Many "elts" [Other "Subscript" [One "value" (Name "x"); One "slice" (Other "Tuple" [Many "elts" [Other "Constant" [Data "value" "Ellipsis"]; Other "Slice" [Data "lower" "None"; One "upper" (Other "Subscript" [One "value" (Attribute (Name "cos") "shape"); One "slice" (Other "UnaryOp" [One "op" (Other "USub" []); One "operand" (Other "Constant" [Data "value" "1"])])]); Data "step" "None"]]])]; Other "Subscript" [One "value" (Name "x"); One "slice" (Other "Tuple" [Many "elts" [Other "Constant" [Data "value" "Ellipsis"]; Other "Slice" [One "lower" (Other "Subscript" [One "value" (Attribute (Name "cos") "shape"); One "slice" (Other "UnaryOp" [One "op" (Other "USub" []); One "operand" (Other "Constant" [Data "value" "1"])])]); Data "upper" "None"; Data "step" "None"]]])]]])]; Other "Assign" [Many "targets" [Name "t_rot"]; One "value" (Other "BinOp" [One "left" (Other "BinOp" [One "left" (Name "t_rot"); One "op" (Other "Mult" []); One "right" (Name "cos")]); One "op" (Other "Add" []); One "right" (Other "BinOp" [One "left" (Call (Name "_rotate_half") [Name "t_rot"] []); One "op" (Other "Mult" []); One "right" (Name "sin")])])]; Other "Return" [One "value" (Call (Attribute (Name "paddle") "concat") [] [Other "keyword" [Data "arg" "x"; One "value" (Other "Tuple" [Many "elts" [Name "t_rot"; Name "t_pass"]])]; Other "keyword" [Data "arg" "axis"; One "value" (Other "UnaryOp" [One "op" (Other "USub" []); One "operand" (Other "Constant" [Data "value" "1"])])]])]]; Many "decorator_list" []; Data "returns" "None"]].
(** api_matcher.py:3935-3950 [NTupleMatcher] *)
Definition helper_24 : list node :=
  [Import [MkAlias "collections" None];
   ImportFrom (Some "itertools") [MkAlias "repeat" None] 0;
   Other "FunctionDef" [Data "name" "create_tuple_converter"; One "args" (Other "arguments" [Many "posonlyargs" []; Many "args" [Other "arg" [Data "arg" "n"; Data "annotation" "None"]; Other "arg" [Data "arg" "name"; Data "annotation" "None"]]; Data "vararg" "None"; Many "kwonlyargs" []; Many "kw_defaults" []; Data "kwarg" "None"; Many "defaults" [Other "Constant" [Data "value" "'parse'"]]]); Many "body" [Other "FunctionDef" [Data "name" "convert_to_tuple"; One "args" (Other "arguments" [Many "posonlyargs" []; Many "args" [Other "arg" [Data "arg" "x"; Data "annotation" "None"]]; Data "vararg" "None"; Many "kwonlyargs" []; Many "kw_defaults" []; Data "kwarg" "None"; Many "defaults" []]); Many "body" [Other "If" [One "test" (Call (Name "isinstance") [Name "x"; Attribute (Attribute (Name "collections") "abc") "Iterable"] []); Many "body" [Other "Return" [One "value" (Call (Name "tuple") [Name "x"] [])]]; Many "orelse" []]; Other "Return" [One "value" (Call (Name "tuple") [Call (Name "repeat") [Name "x"; Name "n"] []] [])]]; Many "decorator_list" []; Data "returns" "None"]; Other "Assign" [Many "targets" [Attribute (Name "convert_to_tuple") "__name__"]; One "value" (Name "name")]; Other "Return" [One "value" (Name "convert_to_tuple")]]; Many "decorator_list" []; Data "returns" "None"]].
(** api_matcher.py:3974-3993 [Get_EnumMatcher] *)
Definition helper_25 : list node :=
  [Other "FunctionDef" [Data "name" "get_enum"; One "args" (Other "arguments" [Many "posonlyargs" []; Many "args" [Other "arg" [Data "arg" "reduction"; One "annotation" (Name "str")]]; Data "vararg" "None"; Many "kwonlyargs" []; Many "kw_defaults" []; Data "kwarg" "None"; Many "defaults" []]); Many "body" [Other "If" [One "test" (Other "Compare" [One "left" (Name "reduction"); Many "ops" [Other "Eq" []]; Many "comparators" [Other "Constant" [Data "value" "'none'"]]]); Many "body" [Other "Assign" [Many "targets" [Name "ret"]; One "value" (Other "Constant" [Data "value" "0"])]]; Many "orelse" [Other "If" [One "test" (Other "Compare" [One "left" (Name "reduction"); Many "ops" [Other "Eq" []]; Many "comparators" [Other "Constant" [Data "value" "'mean'"]]]); Many "body" [Other "Assign" [Many "targets" [Name "ret"]; One "value" (Other "Constant" [Data "value" "1"])]]; Many "orelse" [Other "If" [One "test" (Other "Compare" [One "left" (Name "reduction"); Many "ops" [Other "Eq" []]; Many "comparators" [Other "Constant" [Data "value" "'elementwise_mean'"]]]); Many "body" [Other "Expr" [One "value" (Call (Attribute (Name "warnings") "warn") [Other "Constant" [Data "value" """reduction='elementwise_mean' is deprecated, please use reduction='mean' instead."""]] [])]; Other "Assign" [Many "targets" [Name "ret"]; One "value" (Other "Constant" [Data "value" "1"])]]; Many "orelse" [Other "If" [One "test" (Other "Compare" [One "left" (Name "reduction"); Many "ops" [Other "Eq" []]; Many "comparators" [Other "Constant" [Data "value" "'sum'"]]]); Many "body" [Other "Assign" [Many "targets" [Name "ret"]; One "value" (Other "Constant" [Data "value" "2"])]]; Many "orelse" [Other "Assign" [Many "targets" [Name "ret"]; One "value" (Other "UnaryOp" [One "op" (Other "USub" []); One "operand" (Other "Constant" [Data "value" "1"])])]; Other "Raise" [One "exc" (Call (Name "ValueError") [Call (Attribute (Other "Constant" [Data "value" "'{} is not a valid value for reduction'"]) "format") [Name "reduction"] []] []); Data "cause" "None"]]]]]]]]]; Other "Return" [One "value" (Name "ret")]]; Many "decorator_list" []; One "returns" (Name "int")]].
(** api_matcher.py:4006-4023 [SoftmaxMatcher] *)
Definition helper_26 : list node :=
  [Other "FunctionDef" [Data "name" "_get_softmax_dim"; One "args" (Other "arguments" [Many "posonlyargs" []; Many "args" [Other "arg" [Data "arg" "axis"; One "annotation" (Name "int")]]; Data "vararg" "None"; Many "kwonlyargs" []; Many "kw_defaults" []; Data "kwarg" "None"; Many "defaults" []]); Many "body" [Other "If" [One "test" (Other "BoolOp" [One "op" (Other "Or" []); Many "values" [Other "Compare" [One "left" (Name "axis"); Many "ops" [Other "Eq" []]; Many "comparators" [Other "Constant" [Data "value" "0"]]]; Other "Compare" [One "left" (Name "axis"); Many "ops" [Other "Eq" []]; Many "comparators" [Other "Constant" [Data "value" "1"]]]; Other "Compare" [One "left" (Name "axis"); Many "ops" [Other "Eq" []]; Many "comparators" [Other "Constant" [Data "value" "3"]]]]]); Many "body" [Other "Assign" [Many "targets" [Name "ret"]; One "value" (Other "Constant" [Data "value" "0"])]]; Many "orelse" [Other "Assign" [Many "targets" [Name "ret"]; One "value" (Other "Constant" [Data "value" "1"])]]]; Other "Return" [One "value" (Name "ret")]]; Many "decorator_list" []; One "returns" (Name "int")];
   Other "FunctionDef" [Data "name" "_softmax_forward"; One "args" (Other "arguments" [Many "posonlyargs" []; Many "args" [Other "arg" [Data "arg" "self"; Data "annotation" "None"]; Other "arg" [Data "arg" "x"; Data "annotation" "None"]]; Data "vararg" "None"; Many "kwonlyargs" []; Many "kw_defaults" []; Data "kwarg" "None"; Many "defaults" []]); Many "body" [Other "If" [One "test" (Other "Compare" [One "left" (Attribute (Name "self") "_axis"); Many "ops" [Other "Is" []]; Many "comparators" [Other "Constant" [Data "value" "None"]]]); Many "body" [Other "Return" [One "value" (Call (Attribute (Attribute (Attribute (Name "paddle") "nn") "functional") "softmax") [Name "x"; Call (Name "_get_softmax_dim") [Attribute (Name "x") "ndim"] []] [])]]; Many "orelse" []]; Other "Return" [One "value" (Call (Attribute (Attribute (Attribute (Name "paddle") "nn") "functional") "softmax") [Name "x"; Attribute (Name "self") "_axis"] [])]]; Many "decorator_list" []; Data "returns" "None"];
   Other "Expr" [One "value" (Call (Name "setattr") [Attribute (Attribute (Name "paddle") "nn") "Softmax"; Other "Constant" [Data "value" "'forward'"]; Name "_softmax_forward"] [])]].
(** api_matcher.py:4032-4049 [LogSoftmaxMatcher] *)
Definition helper_27 : list node :=
  [Other "FunctionDef" [Data "name" "_get_softmax_dim"; One "args" (Other "arguments" [Many "posonlyargs" []; Many "args" [Other "arg" [Data "arg" "axis"; One "annotation" (Name "int")]]; Data "vararg" "None"; Many "kwonlyargs" []; Many "kw_defaults" []; Data "kwarg" "None"; Many "defaults" []]); Many "body" [Other "If" [One "test" (Other "BoolOp" [One "op" (Other "Or" []); Many "values" [Other "Compare" [One "left" (Name "axis"); Many "ops" [Other "Eq" []]; Many "comparators" [Other "Constant" [Data "value" "0"]]]; Other "Compare" [One "left" (Name "axis"); Many "ops" [Other "Eq" []]; Many "comparators" [Other "Constant" [Data "value" "1"]]]; Other "Compare" [One "left" (Name "axis"); Many "ops" [Other "Eq" []]; Many "comparators" [Other "Constant" [Data "value" "3"]]]]]); Many "body" [Other "Assign" [Many "targets" [Name "ret"]; One "value" (Other "Constant" [Data "value" "0"])]]; Many "orelse" [Other "Assign" [Many "targets" [Name "ret"]; One "value" (Other "Constant" [Data "value" "1"])]]]; Other "Return" [One "value" (Name "ret")]]; Many "decorator_list" []; One "returns" (Name "int")];
   Other "FunctionDef" [Data "name" "_log_softmax_forward"; One "args" (Other "arguments" [Many "posonlyargs" []; Many "args" [Other "arg" [Data "arg" "self"; Data "annotation" "None"]; Other "arg" [Data "arg" "x"; Data "annotation" "None"]]; Data "vararg" "None"; Many "kwonlyargs" []; Many "kw_defaults" []; Data "kwarg" "None"; Many "defaults" []]); Many "body" [Other "If" [One "test" (Other "Compare" [One "left" (Attribute (Name "self") "_axis"); Many "ops" [Other "Is" []]; Many "comparators" [Other "Constant" [Data "value" "None"]]]); Many "body" [Other "Return" [One "value" (Call (Attribute (Attribute (Attribute (Name "paddle") "nn") "functional") "log_softmax") [Name "x"; Call (Name "_get_softmax_dim") [Attribute (Name "x") "ndim"] []] [])]]; Many "orelse" []]; Other "Return" [One "value" (Call (Attribute (Attribute (Attribute (Name "paddle") "nn") "functional") "log_softmax") [Name "x"; Attribute (Name "self") "_axis"] [])]]; Many "decorator_list" []; Data "returns" "None"];
   Other "Expr" [One "value" (Call (Name "setattr") [Attribute (Attribute (Name "paddle") "nn") "LogSoftmax"; Other "Constant" [Data "value" "'forward'"]; Name "_log_softmax_forward"] [])]].
(** api_matcher.py:4058-4069 [FSoftmaxMatcher] *)
Definition helper_28 : list node :=
  [Other "FunctionDef" [Data "name" "_get_softmax_dim"; One "args" (Other "arguments" [Many "posonlyargs" []; Many "args" [Other "arg" [Data "arg" "axis"; One "annotation" (Name "int")]]; Data "vararg" "None"; Many "kwonlyargs" []; Many "kw_defaults" []; Data "kwarg" "None"; Many "defaults" []]); Many "body" [Other "If" [One "test" (Other "BoolOp" [One "op" (Other "Or" []); Many "values" [Other "Compare" [One "left" (Name "axis"); Many "ops" [Other "Eq" []]; Many "comparators" [Other "Constant" [Data "value" "0"]]]; Other "Compare" [One "left" (Name "axis"); Many "ops" [Other "Eq" []]; Many "comparators" [Other "Constant" [Data "value" "1"]]]; Other "Compare" [One "left" (Name "axis"); Many "ops" [Other "Eq" []]; Many "comparators" [Other "Constant" [Data "value" "3"]]]]]); Many "body" [Other "Assign" [Many "targets" [Name "ret"]; One "value" (Other "Constant" [Data "value" "0"])]]; Many "orelse" [Other "Assign" [Many "targets" [Name "ret"]; One "value" (Other "Constant" [Data "value" "1"])]]]; Other "Return" [One "value" (Name "ret")]]; Many "decorator_list" []; One "returns" (Name "int")]].
(** api_matcher.py:4084-4101 [SoftminMatcher] *)
Definition helper_29 : list node :=
  [Other "FunctionDef" [Data "name" "_get_softmax_dim"; One "args" (Other "arguments" [Many "posonlyargs" []; Many "args" [Other "arg" [Data "arg" "axis"; One "annotation" (Name "int")]]; Data "vararg" "None"; Many "kwonlyargs" []; Many "kw_defaults" []; Data "kwarg" "None"; Many "defaults" []]); Many "body" [Other "If" [One "test" (Other "BoolOp" [One "op" (Other "Or" []); Many "values" [Other "Compare" [One "left" (Name "axis"); Many "ops" [Other "Eq" []]; Many "comparators" [Other "Constant" [Data "value" "0"]]]; Other "Compare" [One "left" (Name "axis"); Many "ops" [Other "Eq" []]; Many "comparators" [Other "Constant" [Data "value" "1"]]]; Other "Compare" [One "left" (Name "axis"); Many "ops" [Other "Eq" []]; Many "comparators" [Other "Constant" [Data "value" "3"]]]]]); Many "body" [Other "Assign" [Many "targets" [Name "ret"]; One "value" (Other "Constant" [Data "value" "0"])]]; Many "orelse" [Other "Assign" [Many "targets" [Name "ret"]; One "value" (Other "Constant" [Data "value" "1"])]]]; Other "Return" [One "value" (Name "ret")]]; Many "decorator_list" []; One "returns" (Name "int")];
   Other "ClassDef" [Data "name" "Softmin"; Many "bases" [Attribute (Attribute (Name "paddle") "nn") "Softmax"]; Many "keywords" []; Many "body" [Other "FunctionDef" [Data "name" "forward"; One "args" (Other "arguments" [Many "posonlyargs" []; Many "args" [Other "arg" [Data "arg" "self"; Data "annotation" "None"]; Other "arg" [Data "arg" "x"; Data "annotation" "None"]]; Data "vararg" "None"; Many "kwonlyargs" []; Many "kw_defaults" []; Data "kwarg" "None"; Many "defaults" []]); Many "body" [Other "If" [One "test" (Other "Compare" [One "left" (Attribute (Name "self") "_axis"); Many "ops" [Other "Is" []]; Many "comparators" [Other "Constant" [Data "value" "None"]]]); Many "body" [Other "Return" [One "value" (Call (Attribute (Attribute (Attribute (Name "paddle") "nn") "functional") "softmax") [Other "UnaryOp" [One "op" (Other "USub" []); One "operand" (Name "x")]; Call (Name "_get_softmax_dim") [Attribute (Name "x") "ndim"] []] [])]]; Many "orelse" []]; Other "Return" [One "value" (Call (Attribute (Attribute (Attribute (Name "paddle") "nn") "functional") "softmax") [Other "UnaryOp" [One "op" (Other "USub" []); One "operand" (Name "x")]; Attribute (Name "self") "_axis"] [])]]; Many "decorator_list" []; Data "returns" "None"]]; Many "decorator_list" []]].
(** api_matcher.py:4395-4413 [SymeigMatcher] *)
Definition helper_30 : list node :=
  [Other "FunctionDef" [Data "name" "convert_symeig"; One "args" (Other "arguments" [Many "posonlyargs" []; Many "args" []; Data "vararg" "None"; Many "kwonlyargs" []; Many "kw_defaults" []; One "kwarg" (Other "arg" [Data "arg" "kwargs"; Data "annotation" "None"]); Many "defaults" []]); Many "body" [Other "Assign" [Many "targets" [Name "out_v"]; One "value" (Call (Attribute (Name "kwargs") "pop") [Other "Constant" [Data "value" "'out'"]; Other "Constant" [Data "value" "None"]] [])]; Other "Assign" [Many "targets" [Name "upper"]; One "value" (Call (Attribute (Name "kwargs") "pop") [Other "Constant" [Data "value" "'upper'"]; Other "Constant" [Data "value" "True"]] [])]; Other "Assign" [Many "targets" [Name "UPLO"]; One "value" (Other "IfExp" [One "test" (Name "upper"); One "body" (Other "Constant" [Data "value" "'U'"]); One "orelse" (Other "Constant" [Data "value" "'L'"])])]; Other "Assign" [Many "targets" [Name "eigenvectors"]; One "value" (Call (Attribute (Name "kwargs") "pop") [Other "Constant" [Data "value" "'eigenvectors'"]; Other "Constant" [Data "value" "False"]] [])]; Other "If" [One "test" (Other "UnaryOp" [One "op" (Other "Not" []); One "operand" (Name "eigenvectors")]); Many "body" [Other "Assign" [Many "targets" [Name "result"]; One "value" (Other "Tuple" [Many "elts" [Call (Attribute (Attribute (Name "paddle") "linalg") "eigvalsh") [Other "Subscript" [One "value" (Name "kwargs"); One "slice" (Other "Constant" [Data "value" "'input'"])]] [Other "keyword" [Data "arg" "UPLO"; One "value" (Name "UPLO")]]; Call (Attribute (Name "paddle") "to_tensor") [Other "List" [Many "elts" []]] [Other "keyword" [Data "arg" "dtype"; One "value" (Attribute (Name "paddle") "complex64")]]]])]]; Many "orelse" [Other "Assign" [Many "targets" [Name "result"]; One "value" (Call (Attribute (Attribute (Name "paddle") "linalg") "eigh") [Other "Subscript" [One "value" (Name "kwargs"); One "slice" (Other "Constant" [Data "value" "'input'"])]] [Other "keyword" [Data "arg" "UPLO"; One "value" (Name "UPLO")]])]]]; Other "If" [One "test" (Name "out_v"); Many "body" [Other "Assign" [Many "targets" [Name "result"]; One "value" (Other "Tuple" [Many "elts" [Call (Attribute (Name "paddle") "assign") [Other "Subscript" [One "value" (Name "result"); One "slice" (Other "Constant" [Data "value" "0"])]; Other "Subscript" [One "value" (Name "out_v"); One "slice" (Other "Constant" [Data "value" "0"])]] []; Call (Attribute (Name "paddle") "assign") [Other "Subscript" [One "value" (Name "result"); One "slice" (Other "Constant" [Data "value" "1"])]; Other "Subscript" [One "value" (Name "out_v"); One "slice" (Other "Constant" [Data "value" "1"])]] []]])]]; Many "orelse" []]; Other "Return" [One "value" (Name "result")]]; Many "decorator_list" []; Data "returns" "None"]].
(** api_matcher.py:4423-4604 [CanCastMatcher] *)
Definition helper_31 : list node :=
  [Other "FunctionDef" [Data "name" "can_cast"; One "args" (Other "arguments" [Many "posonlyargs" []; Many "args" [Other "arg" [Data "arg" "from_"; Data "annotation" "None"]; Other "arg" [Data "arg" "to"; Data "annotation" "None"]]; Data "vararg" "None"; Many "kwonlyargs" []; Many "kw_defaults" []; Data "kwarg" "None"; Many "defaults" []]); Many "body" [Other "Assign" [Many "targets" [Name "can_cast_dict"]; One "value" (Other "Dict" [Many "keys" [Other "Constant" [Data "value" "'bfloat16'"]; Other "Constant" [Data "value" "'float16'"]; Other "Constant" [Data "value" "'float32'"]; Other "Constant" [Data "value" "'float64'"]; Other "Constant" [Data "value" "'complex64'"]; Other "Constant" [Data "value" "'complex128'"]; Other "Constant" [Data "value" "'uint8'"]; Other "Constant" [Data "value" "'int8'"]; Other "Constant" [Data "value" "'int16'"]; Other "Constant" [Data "value" "'int32'"]; Other "Constant" [Data "value" "'int64'"]; Other "Constant" [Data "value" "'bool'"]]; Many "values" [Other "Dict" [Many "keys" [Other "Constant" [Data "value" "'bfloat16'"]; Other "Constant" [Data "value" "'float16'"]; Other "Constant" [Data "value" "'float32'"]; Other "Constant" [Data "value" "'float64'"]; Other "Constant" [Data "value" "'complex64'"]; Other "Constant" [Data "value" "'complex128'"]; Other "Constant" [Data "value" "'uint8'"]; Other "Constant" [Data "value" "'int8'"]; Other "Constant" [Data "value" "'int16'"]; Other "Constant" [Data "value" "'int32'"]; Other "Constant" [Data "value" "'int64'"]; Other "Constant" [Data "value" "'bool'"]]; Many "values" [Other "Constant" [Data "value" "True"]; Other "Constant" [Data "value" "True"]; Other "Constant" [Data "value" "True"]; Other "Constant" [Data "value" "True"]; Other "Constant" [Data "value" "True"]; Other "Constant" [Data "value" "True"]; Other "Constant" [Data "value" "False"]; Other "Constant" [Data "value" "False"]; Other "Constant" [Data "value" "False"]; Other "Constant" [Data "value" "False"]; Other "Constant" [Data "value" "False"]; Other "Constant" [Data "value" "False"]]]; Other "Dict" [Many "keys" [Other "Constant" [Data "value" "'bfloat16'"]; Other "Constant" [Data "value" "'float16'"]; Other "Constant" [Data "value" "'float32'"]; Other "Constant" [Data "value" "'float64'"]; Other "Constant" [Data "value" "'complex64'"]; Other "Constant" [Data "value" "'complex128'"]; Other "Constant" [Data "value" "'uint8'"]; Other "Constant" [Data "value" "'int8'"]; Other "Constant" [Data "value" "'int16'"]; Other "Constant" [Data "value" "'int32'"]; Other "Constant" [Data "value" "'int64'"]; Other "Constant" [Data "value" "'bool'"]]; Many "values" [Other "Constant" [Data "value" "True"]; Other "Constant" [Data "value" "True"]; Other "Constant" [Data "value" "True"]; Other "Constant" [Data "value" "True"]; Other "Constant" [Data "value" "True"]; Other "Constant" [Data "value" "True"]; Other "Constant" [Data "value" "False"]; Other "Constant" [Data "value" "False"]; Other "Constant" [Data "value" "False"]; Other "Constant" [Data "value" "False"]; Other "Constant" [Data "value" "False"]; Other "Constant" [Data "value" "False"]]]; Other "Dict" [Many "keys" [Other "Constant" [Data "value" "'bfloat16'"]; Other "Constant" [Data "value" "'float16'"]; Other "Constant" [Data "value" "'float32'"]; Other "Constant" [Data "value" "'float64'"]; Other "Constant" [Data "value" "'complex64'"]; Other "Constant" [Data "value" "'complex128'"]; Other "Constant" [Data "value" "'uint8'"]; Other "Constant" [Data "value" "'int8'"]; Other "Constant" [Data "value" "'int16'"]; Other "Constant" [Data "value" "'int32'"]; Other "Constant" [Data "value" "'int64'"]; Other "Constant" [Data "value" "'bool'"]]; Many "values" [Other "Constant" [Data "value" "True"]; Other "Constant" [Data "value" "True"]; Other "Constant" [Data "value" "True"]; Other "Constant" [Data "value" "True"]; Other "Constant" [Data "value" "True"]; Other "Constant" [Data "value" "True"]; Other "Constant" [Data "value" "False"]; Other "Constant" [Data "value" "False"]; Other "Constant" [Data "value" "False"]; Other "Constant" [Data "value" "False"]; Other "Constant" [Data "value" "False"]; Other "Constant" [Data "value" "False"]]]; Other "Dict" [Many "keys" [Other "Constant" [Data "value" "'bfloat16'"]; Other "Constant" [Data "value" "'float16'"]; Other "Constant" [Data "value" "'float32'"]; Other "Constant" [Data "value" "'float64'"]; Other "Constant" [Data "value" "'complex64'"]; Other "Constant" [Data "value" "'complex128'"]; Other "Constant" [Data "value" "'uint8'"]; Other "Constant" [Data "value" "'int8'"]; Other "Constant" [Data "value" "'int16'"]; Other "Constant" [Data "value" "'int32'"]; Other "Constant" [Data "value" "'int64'"]; Other "Constant" [Data "value" "'bool'"]]; Many "values" [Other "Constant" [Data "value" "True"]; Other "Constant" [Data "value" "True"]; Other "Constant" [Data "value" "True"]; Other "Constant" [Data "value" "True"]; Other "Constant" [Data "value" "True"]; Other "Constant" [Data "value" "True"]; Other "Constant" [Data "value" "False"]; Other "Constant" [Data "value" "False"]; Other "Constant" [Data "value" "False"]; Other "Constant" [Data "value" "False"]; Other "Constant" [Data "value" "False"]; Other "Constant" [Data "value" "False"]]]; Other "Dict" [Many "keys" [Other "Constant" [Data "value" "'bfloat16'"]; Other "Constant" [Data "value" "'float16'"]; Other "Constant" [Data "value" "'float32'"]; Other "Constant" [Data "value" "'float64'"]; Other "Constant" [Data "value" "'complex64'"]; Other "Constant" [Data "value" "'complex128'"]; Other "Constant" [Data "value" "'uint8'"]; Other "Constant" [Data "value" "'int8'"]; Other "Constant" [Data "value" "'int16'"]; Other "Constant" [Data "value" "'int32'"]; Other "Constant" [Data "value" "'int64'"]; Other "Constant" [Data "value" "'bool'"]]; Many "values" [Other "Constant" [Data "value" "False"]; Other "Constant" [Data "value" "False"]; Other "Constant" [Data "value" "False"]; Other "Constant" [Data "value" "False"]; Other "Constant" [Data "value" "True"]; Other "Constant" [Data "value" "True"]; Other "Constant" [Data "value" "False"]; Other "Constant" [Data "value" "False"]; Other "Constant" [Data "value" "False"]; Other "Constant" [Data "value" "False"]; Other "Constant" [Data "value" "False"]; Other "Constant" [Data "value" "False"]]]; Other "Dict" [Many "keys" [Other "Constant" [Data "value" "'bfloat16'"]; Other "Constant" [Data "value" "'float16'"]; Other "Constant" [Data "value" "'float32'"]; Other "Constant" [Data "value" "'float64'"]; Other "Constant" [Data "value" "'complex64'"]; Other "Constant" [Data "value" "'complex128'"]; Other "Constant" [Data "value" "'uint8'"]; Other "Constant" [Data "value" "'int8'"]; Other "Constant" [Data "value" "'int16'"]; Other "Constant" [Data "value" "'int32'"]; Other "Constant" [Data "value" "'int64'"]; Other "Constant" [Data "value" "'bool'"]]; Many "values" [Other "Constant" [Data "value" "False"]; Other "Constant" [Data "value" "False"]; Other "Constant" [Data "value" "False"]; Other "Constant" [Data "value" "False"]; Other "Constant" [Data "value" "True"]; Other "Constant" [Data "value" "True"]; Other "Constant" [Data "value" "False"]; Other "Constant" [Data "value" "False"]; Other "Constant" [Data "value" "False"]; Other "Constant" [Data "value" "False"]; Other "Constant" [Data "value" "False"]; Other "Constant" [Data "value" "False"]]]; Other "Dict" [Many "keys" [Other "Constant" [Data "value" "'bfloat16'"]; Other "Constant" [Data "value" "'float16'"]; Other "Constant" [Data "value" "'float32'"]; Other "Constant" [Data "value" "'float64'"]; Other "Constant" [Data "value" "'complex64'"]; Other "Constant" [Data "value" "'complex128'"]; Other "Constant" [Data "value" "'uint8'"]; Other "Constant" [Data "value" "'int8'"]; Other "Constant" [Data "value" "'int16'"]; Other "Constant" [Data "value" "'int32'"]; Other "Constant" [Data "value" "'int64'"]; Other "Constant" [Data "value" "'bool'"]]; Many "values" [Other "Constant" [Data "value" "True"]; Other "Constant" [Data "value" "True"]; Other "Constant" [Data "value" "True"]; Other "Constant" [Data "value" "True"]; Other "Constant" [Data "value" "True"]; Other "Constant" [Data "value" "True"]; Other "Constant" [Data "value" "True"]; Other "Constant" [Data "value" "True"]; Other "Constant" [Data "value" "True"]; Other "Constant" [Data "value" "True"]; Other "Constant" [Data "value" "True"]; Other "Constant" [Data "value" "False"]]]; Other "Dict" [Many "keys" [Other "Constant" [Data "value" "'bfloat16'"]; Other "Constant" [Data "value" "'float16'"]; Other "Constant" [Data "value" "'float32'"]; Other "Constant" [Data "value" "'float64'"]; Other "Constant" [Data "value" "'complex64'"]; Other "Constant" [Data "value" "'complex128'"]; Other "Constant" [Data "value" "'uint8'"]; Other "Constant" [Data "value" "'int8'"]; Other "Constant" [Data "value" "'int16'"]; Other "Constant" [Data "value" "'int32'"]; Other "Constant" [Data "value" "'int64'"]; Other "Constant" [Data "value" "'bool'"]]; Many "values" [Other "Constant" [Data "value" "True"]; Other "Constant" [Data "value" "True"]; Other "Constant" [Data "value" "True"]; Other "Constant" [Data "value" "True"]; Other "Constant" [Data "value" "True"]; Other "Constant" [Data "value" "True"]; Other "Constant" [Data "value" "True"]; Other "Constant" [Data "value" "True"]; Other "Constant" [Data "value" "True"]; Other "Constant" [Data "value" "True"]; Other "Constant" [Data "value" "True"]; Other "Constant" [Data "value" "False"]]]; Other "Dict" [Many "keys" [Other "Constant" [Data "value" "'bfloat16'"]; Other "Constant" [Data "value" "'float16'"]; Other "Constant" [Data "value" "'float32'"]; Other "Constant" [Data "value" "'float64'"]; Other "Constant" [Data "value" "'complex64'"]; Other "Constant" [Data "value" "'complex128'"]; Other "Constant" [Data "value" "'uint8'"]; Other "Constant" [Data "value" "'int8'"]; Other "Constant" [Data "value" "'int16'"]; Other "Constant" [Data "value" "'int32'"]; Other "Constant" [Data "value" "'int64'"]; Other "Constant" [Data "value" "'bool'"]]; Many "values" [Other "Constant" [Data "value" "True"]; Other "Constant" [Data "value" "True"]; Other "Constant" [Data "value" "True"]; Other "Constant" [Data "value" "True"]; Other "Constant" [Data "value" "True"]; Other "Constant" [Data "value" "True"]; Other "Constant" [Data "value" "True"]; Other "Constant" [Data "value" "True"]; Other "Constant" [Data "value" "True"]; Other "Constant" [Data "value" "True"]; Other "Constant" [Data "value" "True"]; Other "Constant" [Data "value" "False"]]]; Other "Dict" [Many "keys" [Other "Constant" [Data "value" "'bfloat16'"]; Other "Constant" [Data "value" "'float16'"]; Other "Constant" [Data "value" "'float32'"]; Other "Constant" [Data "value" "'float64'"]; Other "Constant" [Data "value" "'complex64'"]; Other "Constant" [Data "value" "'complex128'"]; Other "Constant" [Data "value" "'uint8'"]; Other "Constant" [Data "value" "'int8'"]; Other "Constant" [Data "value" "'int16'"]; Other "Constant" [Data "value" "'int32'"]; Other "Constant" [Data "value" "'int64'"]; Other "Constant" [Data "value" "'bool'"]]; Many "values" [Other "Constant" [Data "value" "True"]; Other "Constant" [Data "value" "True"]; Other "Constant" [Data "value" "True"]; Other "Constant" [Data "value" "True"]; Other "Constant" [Data "value" "True"]; Other "Constant" [Data "value" "True"]; Other "Constant" [Data "value" "True"]; Other "Constant" [Data "value" "True"]; Other "Constant" [Data "value" "True"]; Other "Constant" [Data "value" "True"]; Other "Constant" [Data "value" "True"]; Other "Constant" [Data "value" "False"]]]; Other "Dict" [Many "keys" [Other "Constant" [Data "value" "'bfloat16'"]; Other "Constant" [Data "value" "'float16'"]; Other "Constant" [Data "value" "'float32'"]; Other "Constant" [Data "value" "'float64'"]; Other "Constant" [Data "value" "'complex64'"]; Other "Constant" [Data "value" "'complex128'"]; Other "Constant" [Data "value" "'uint8'"]; Other "Constant" [Data "value" "'int8'"]; Other "Constant" [Data "value" "'int16'"]; Other "Constant" [Data "value" "'int32'"]; Other "Constant" [Data "value" "'int64'"]; Other "Constant" [Data "value" "'bool'"]]; Many "values" [Other "Constant" [Data "value" "True"]; Other "Constant" [Data "value" "True"]; Other "Constant" [Data "value" "True"]; Other "Constant" [Data "value" "True"]; Other "Constant" [Data "value" "True"]; Other "Constant" [Data "value" "True"]; Other "Constant" [Data "value" "True"]; Other "Constant" [Data "value" "True"]; Other "Constant" [Data "value" "True"]; Other "Constant" [Data "value" "True"]; Other "Constant" [Data "value" "True"]; Other "Constant" [Data "value" "False"]]]; Other "Dict" [Many "keys" [Other "Constant" [Data "value" "'bfloat16'"]; Other "Constant" [Data "value" "'float16'"]; Other "Constant" [Data "value" "'float32'"]; Other "Constant" [Data "value" "'float64'"]; Other "Constant" [Data "value" "'complex64'"]; Other "Constant" [Data "value" "'complex128'"]; Other "Constant" [Data "value" "'uint8'"]; Other "Constant" [Data "value" "'int8'"]; Other "Constant" [Data "value" "'int16'"]; Other "Constant" [Data "value" "'int32'"]; Other "Constant" [Data "value" "'int64'"]; Other "Constant" [Data "value" "'bool'"]]; Many "values" [Other "Constant" [Data "value" "True"]; Other "Constant" [Data "value" "True"]; Other "Constant" [Data "value" "True"]; Other "Constant" [Data "value" "True"]; Other "Constant" [Data "value" "True"]; Other "Constant" [Data "value" "True"]; Other "Constant" [Data "value" "True"]; Other "Constant" [Data "value" "True"]; Other "Constant" [Data "value" "True"]; Other "Constant" [Data "value" "True"]; Other "Constant" [Data "value" "True"]; Other "Constant" [Data "value" "True"]]]]])]; Other "If" [One "test" (Call (Name "isinstance") [Name "from_"; Attribute (Attribute (Attribute (Name "paddle") "base") "core") "DataType"] []); Many "body" [Other "Assign" [Many "targets" [Name "from_"]; One "value" (Call (Attribute (Attribute (Name "from_") "name") "lower") [] [])]]; Many "orelse" []]; Other "If" [One "test" (Call (Name "isinstance") [Name "to"; Attribute (Attribute (Attribute (Name "paddle") "base") "core") "DataType"] []); Many "body" [Other "Assign" [Many "targets" [Name "to"]; One "value" (Call (Attribute (Attribute (Name "to") "name") "lower") [] [])]]; Many "orelse" []]; Other "Return" [One "value" (Other "Subscript" [One "value" (Other "Subscript" [One "value" (Name "can_cast_dict"); One "slice" (Name "from_")]); One "slice" (Name "to")])]]; Many "decorator_list" []; Data "returns" "None"]].
(** api_matcher.py:4612-4619 [FloatPowerMatcher] *)
Definition helper_32 : list node :=
  [Other "FunctionDef" [Data "name" "cast_exponent"; One "args" (Other "arguments" [Many "posonlyargs" []; Many "args" [Other "arg" [Data "arg" "exponent"; Data "annotation" "None"]]; Data "vararg" "None"; Many "kwonlyargs" []; Many "kw_defaults" []; Data "kwarg" "None"; Many "defaults" []]); Many "body" [Other "Return" [One "value" (Other "IfExp" [One "test" (Call (Name "isinstance") [Name "exponent"; Attribute (Name "paddle") "Tensor"] []); One "body" (Call (Attribute (Name "exponent") "cast") [Attribute (Name "paddle") "float64"] []); One "orelse" (Name "exponent")])]]; Many "decorator_list" []; Data "returns" "None"]].
(** api_matcher.py:4757-4766 [Device2IntMatcher] *)
Definition helper_33 : list node :=
  [Other "FunctionDef" [Data "name" "device2int"; One "args" (Other "arguments" [Many "posonlyargs" []; Many "args" [Other "arg" [Data "arg" "device"; Data "annotation" "None"]]; Data "vararg" "None"; Many "kwonlyargs" []; Many "kw_defaults" []; Data "kwarg" "None"; Many "defaults" []]); Many "body" [Other "If" [One "test" (Call (Name "isinstance") [Name "device"; Name "str"] []); Many "body" [Other "Assign" [Many "targets" [Name "device"]; One "value" (Call (Attribute (Name "device") "replace") [Other "Constant" [Data "value" "'cuda:'"]; Other "Constant" [Data "value" "''"]] [])]]; Many "orelse" []]; Other "Return" [One "value" (Call (Name "int") [Name "device"] [])]]; Many "decorator_list" []; Data "returns" "None"]].
(** api_matcher.py:4811-4826 [TensorViewMatcher] *)
Definition helper_34 : list node :=
  [Other "FunctionDef" [Data "name" "_Tensor_view"; One "args" (Other "arguments" [Many "posonlyargs" []; Many "args" [Other "arg" [Data "arg" "self"; Data "annotation" "None"]]; One "vararg" (Other "arg" [Data "arg" "args"; Data "annotation" "None"]); Many "kwonlyargs" []; Many "kw_defaults" []; One "kwarg" (Other "arg" [Data "arg" "kwargs"; Data "annotation" "None"]); Many "defaults" []]); Many "body" [Other "If" [One "test" (Name "args"); Many "body" [Other "If" [One "test" (Other "BoolOp" [One "op" (Other "And" []); Many "values" [Other "Compare" [One "left" (Call (Name "len") [Name "args"] []); Many "ops" [Other "Eq" []]; Many "comparators" [Other "Constant" [Data "value" "1"]]]; Call (Name "isinstance") [Other "Subscript" [One "value" (Name "args"); One "slice" (Other "Constant" [Data "value" "0"])]; Other "Tuple" [Many "elts" [Name "tuple"; Name "list"; Name "str"; Attribute (Attribute (Attribute (Name "paddle") "base") "core") "DataType"]]] []]]); Many "body" [Other "Return" [One "value" (Call (Attribute (Name "paddle") "view") [Name "self"; Other "Subscript" [One "value" (Name "args"); One "slice" (Other "Constant" [Data "value" "0"])]] [])]]; Many "orelse" [Other "Return" [One "value" (Call (Attribute (Name "paddle") "view") [Name "self"; Call (Name "list") [Name "args"] []] [])]]]]; Many "orelse" [Other "If" [One "test" (Name "kwargs"); Many "body" [Other "Return" [One "value" (Call (Attribute (Name "paddle") "view") [Name "self"] [Other "keyword" [Data "arg" "shape_or_dtype"; One "value" (Other "Subscript" [One "value" (Call (Name "list") [Call (Attribute (Name "kwargs") "values") [] []] []); One "slice" (Other "Constant" [Data "value" "0"])])]])]]; Many "orelse" []]]]]; Many "decorator_list" []; Data "returns" "None"];
   Other "Expr" [One "value" (Call (Name "setattr") [Attribute (Name "paddle") "Tensor"; Other "Constant" [Data "value" "'view'"]; Name "_Tensor_view"] [])]].
(** api_matcher.py:4850-4859 [EmbeddingMatcher] *)
Definition helper_35 : list node :=
  [Other "ClassDef" [Data "name" "Embedding"; Many "bases" [Attribute (Attribute (Name "paddle") "nn") "Embedding"]; Many "keywords" []; Many "body" [Other "FunctionDef" [Data "name" "__init__"; One "args" (Other "arguments" [Many "posonlyargs" []; Many "args" [Other "arg" [Data "arg" "self"; Data "annotation" "None"]]; One "vararg" (Other "arg" [Data "arg" "args"; Data "annotation" "None"]); Many "kwonlyargs" []; Many "kw_defaults" []; One "kwarg" (Other "arg" [Data "arg" "kwargs"; Data "annotation" "None"]); Many "defaults" []]); Many "body" [Other "Expr" [One "value" (Call (Attribute (Call (Name "super") [] []) "__init__") [Other "Starred" [One "value" (Name "args")]] [Other "keyword" [Data "arg" "None"; One "value" (Name "kwargs")]])]; Other "Assign" [Many "targets" [Attribute (Name "self") "padding_idx"]; One "value" (Attribute (Name "self") "_padding_idx")]]; Many "decorator_list" []; Data "returns" "None"]]; Many "decorator_list" []]].
(** api_matcher.py:5153-5164 [RpcRemoteMatcher] *)
Definition helper_36 : list node :=
  [Other "ClassDef" [Data "name" "rpc_remote"; Many "bases" []; Many "keywords" []; Many "body" [Other "FunctionDef" [Data "name" "__init__"; One "args" (Other "arguments" [Many "posonlyargs" []; Many "args" [Other "arg" [Data "arg" "self"; Data "annotation" "None"]; Other "arg" [Data "arg" "remote_obj"; Data "annotation" "None"]]; Data "vararg" "None"; Many "kwonlyargs" []; Many "kw_defaults" []; Data "kwarg" "None"; Many "defaults" []]); Many "body" [Other "Assign" [Many "targets" [Attribute (Name "self") "remote"]; One "value" (Name "remote_obj")]]; Many "decorator_list" []; Data "returns" "None"]; Other "FunctionDef" [Data "name" "to_here"; One "args" (Other "arguments" [Many "posonlyargs" []; Many "args" [Other "arg" [Data "arg" "self"; Data "annotation" "None"]]; Data "vararg" "None"; Many "kwonlyargs" []; Many "kw_defaults" []; Data "kwarg" "None"; Many "defaults" []]); Many "body" [Other "Return" [One "value" (Call (Attribute (Attribute (Name "self") "remote") "wait") [] [])]]; Many "decorator_list" []; Data "returns" "None"]]; Many "decorator_list" []]].
(** api_matcher.py:5203-5211 [SetNumInteropThreadsMatcher] *)
Definition helper_37 : list node :=
  [Import [MkAlias "os" None];
   Other "FunctionDef" [Data "name" "_set_num_interop_threads"; One "args" (Other "arguments" [Many "posonlyargs" []; Many "args" [Other "arg" [Data "arg" "int"; Data "annotation" "None"]]; Data "vararg" "None"; Many "kwonlyargs" []; Many "kw_defaults" []; Data "kwarg" "None"; Many "defaults" []]); Many "body" [Other "Assign" [Many "targets" [Other "Subscript" [One "value" (Attribute (Name "os") "environ"); One "slice" (Other "Constant" [Data "value" "'OMP_NUM_THREADS'"])]]; One "value" (Call (Name "str") [Name "int"] [])]]; Many "decorator_list" []; Data "returns" "None"]].
(** api_matcher.py:5226-5234 [SetNumThreadsMatcher] *)
Definition helper_38 : list node :=
  [Import [MkAlias "os" None];
   Other "FunctionDef" [Data "name" "_set_num_threads"; One "args" (Other "arguments" [Many "posonlyargs" []; Many "args" [Other "arg" [Data "arg" "int"; Data "annotation" "None"]]; Data "vararg" "None"; Many "kwonlyargs" []; Many "kw_defaults" []; Data "kwarg" "None"; Many "defaults" []]); Many "body" [Other "Assign" [Many "targets" [Other "Subscript" [One "value" (Attribute (Name "os") "environ"); One "slice" (Other "Constant" [Data "value" "'CPU_NUM'"])]]; One "value" (Call (Name "str") [Name "int"] [])]]; Many "decorator_list" []; Data "returns" "None"]].
(** api_matcher.py:5364-5390 [VOCDetectionMatcher] *)
Definition helper_39 : list node :=
  [Import [MkAlias "os" None];
   Other "FunctionDef" [Data "name" "VOCDetection"; One "args" (Other "arguments" [Many "posonlyargs" []; Many "args" []; One "vararg" (Other "arg" [Data "arg" "args"; Data "annotation" "None"]); Many "kwonlyargs" []; Many "kw_defaults" []; One "kwarg" (Other "arg" [Data "arg" "kwargs"; Data "annotation" "None"]); Many "defaults" []]); Many "body" [Other "Assign" [Many "targets" [Name "root"]; One "value" (Call (Attribute (Name "kwargs") "pop") [Other "Constant" [Data "value" "'root'"]] [])]; Other "Assign" [Many "targets" [Name "year"]; One "value" (Call (Attribute (Name "kwargs") "pop") [Other "Constant" [Data "value" "'year'"]; Other "Constant" [Data "value" "'2012'"]] [])]; Other "If" [One "test" (Other "Compare" [One "left" (Name "year"); Many "ops" [Other "NotEq" []]; Many "comparators" [Other "Constant" [Data "value" "'2012'"]]]); Many "body" [Other "Raise" [One "exc" (Call (Name "ValueError") [Other "Constant" [Data "value" "'PaddlePaddle only supports VOC2012 dataset'"]] []); Data "cause" "None"]]; Many "orelse" []]; Other "Assign" [Many "targets" [Name "image_set"]; One "value" (Call (Attribute (Name "kwargs") "pop") [Other "Constant" [Data "value" "'image_set'"]; Other "Constant" [Data "value" "'train'"]] [])]; Other "Assign" [Many "targets" [Name "download"]; One "value" (Call (Attribute (Name "kwargs") "pop") [Other "Constant" [Data "value" "'download'"]; Other "Constant" [Data "value" "True"]] [])]; Other "Assign" [Many "targets" [Name "transform"]; One "value" (Call (Attribute (Name "kwargs") "pop") [Other "Constant" [Data "value" "'transform'"]; Other "Constant" [Data "value" "None"]] [])]; Other "If" [One "test" (Other "Compare" [One "left" (Name "image_set"); Many "ops" [Other "Eq" []]; Many "comparators" [Other "Constant" [Data "value" "'trainval'"]]]); Many "body" [Other "Assign" [Many "targets" [Name "mode"]; One "value" (Other "Constant" [Data "value" "'train'"])]]; Many "orelse" [Other "If" [One "test" (Other "Compare" [One "left" (Name "image_set"); Many "ops" [Other "Eq" []]; Many "comparators" [Other "Constant" [Data "value" "'train'"]]]); Many "body" [Other "Assign" [Many "targets" [Name "mode"]; One "value" (Other "Constant" [Data "value" "'test'"])]]; Many "orelse" [Other "If" [One "test" (Other "Compare" [One "left" (Name "image_set"); Many "ops" [Other "Eq" []]; Many "comparators" [Other "Constant" [Data "value" "'val'"]]]); Many "body" [Other "Assign" [Many "targets" [Name "mode"]; One "value" (Other "Constant" [Data "value" "'valid'"])]]; Many "orelse" [Other "Raise" [One "exc" (Call (Name "ValueError") [Other "Constant" [Data "value" """Only supports image_set in ['trainval', 'train', 'val']"""]] []); Data "cause" "None"]]]]]]]; Other "Assign" [Many "targets" [Name "data_file"]; One "value" (Call (Attribute (Attribute (Name "os") "path") "join") [Name "root"; Other "Constant" [Data "value" "'VOCtrainval_11-May-2012.tar'"]] [])]; Other "Return" [One "value" (Call (Attribute (Attribute (Attribute (Name "paddle") "vision") "datasets") "VOC2012") [] [Other "keyword" [Data "arg" "data_file"; One "value" (Name "data_file")]; Other "keyword" [Data "arg" "mode"; One "value" (Name "mode")]; Other "keyword" [Data "arg" "transform"; One "value" (Name "transform")]; Other "keyword" [Data "arg" "download"; One "value" (Name "download")]; Other "keyword" [Data "arg" "backend"; One "value" (Other "Constant" [Data "value" "None"])]])]]; Many "decorator_list" []; Data "returns" "None"]].
(** api_matcher.py:5418-5441 [BoxesConvertMatcher] *)
Definition helper_40 : list node :=
  [Other "FunctionDef" [Data "name" "psroi_pool"; One "args" (Other "arguments" [Many "posonlyargs" []; Many "args" []; One "vararg" (Other "arg" [Data "arg" "args"; Data "annotation" "None"]); Many "kwonlyargs" []; Many "kw_defaults" []; One "kwarg" (Other "arg" [Data "arg" "kwargs"; Data "annotation" "None"]); Many "defaults" []]); Many "body" [Other "Assign" [Many "targets" [Name "input"]; One "value" (Other "IfExp" [One "test" (Other "Compare" [One "left" (Call (Name "len") [Name "args"] []); Many "ops" [Other "Gt" []]; Many "comparators" [Other "Constant" [Data "value" "0"]]]); One "body" (Other "Subscript" [One "value" (Name "args"); One "slice" (Other "Constant" [Data "value" "0"])]); One "orelse" (Call (Attribute (Name "kwargs") "get") [Other "Constant" [Data "value" "'input'"]] [])])]; Other "Assign" [Many "targets" [Name "boxes"]; One "value" (Other "IfExp" [One "test" (Other "Compare" [One "left" (Call (Name "len") [Name "args"] []); Many "ops" [Other "Gt" []]; Many "comparators" [Other "Constant" [Data "value" "1"]]]); One "body" (Other "Subscript" [One "value" (Name "args"); One "slice" (Other "Constant" [Data "value" "1"])]); One "orelse" (Call (Attribute (Name "kwargs") "get") [Other "Constant" [Data "value" "'boxes'"]] [])])]; Other "Assign" [Many "targets" [Name "batch_size"]; One "value" (Other "Subscript" [One "value" (Attribute (Name "input") "shape"); One "slice" (Other "Constant" [Data "value" "0"])])]; Other "If" [One "test" (Call (Name "isinstance") [Name "boxes"; Name "list"] []); Many "body" [Other "Assign" [Many "targets" [Name "boxes_num"]; One "value" (Other "BinOp" [One "left" (Other "ListComp" [One "elt" (Call (Name "len") [Name "box"] []); Many "generators" [Other "comprehension" [One "target" (Name "box"); One "iter" (Name "boxes"); Many "ifs" []; Data "is_async" "0"]]]); One "op" (Other "Add" []); One "right" (Other "BinOp" [One "left" (Other "List" [Many "elts" [Other "Constant" [Data "value" "0"]]]); One "op" (Other "Mult" []); One "right" (Other "BinOp" [One "left" (Name "batch_size"); One "op" (Other "Sub" []); One "right" (Call (Name "len") [Name "boxes"] [])])])])]; Other "Assign" [Many "targets" [Name "boxes"]; One "value" (Other "IfExp" [One "test" (Name "boxes"); One "body" (Call (Attribute (Name "paddle") "concat") [Name "boxes"] []); One "orelse" (Call (Attribute (Name "paddle") "zeros") [Other "List" [Many "elts" [Other "Constant" [Data "value" "0"]; Other "Constant" [Data "value" "4"]]]] [])])]]; Many "orelse" [Other "Assign" [Many "targets" [Name "boxes_num"]; One "value" (Other "ListComp" [One "elt" (Call (Attribute (Other "Compare" [One "left" (Other "Subscript" [One "value" (Name "boxes"); One "slice" (Other "Tuple" [Many "elts" [Other "Slice" [Data "lower" "None"; Data "upper" "None"; Data "step" "None"]; Other "Constant" [Data "value" "0"]]])]); Many "ops" [Other "Eq" []]; Many "comparators" [Name "i"]]) "sum") [] []); Many "generators" [Other "comprehension" [One "target" (Name "i"); One "iter" (Call (Name "range") [Name "batch_size"] []); Many "ifs" []; Data "is_async" "0"]]])]; Other "Assign" [Many "targets" [Name "boxes"]; One "value" (Other "Subscript" [One "value" (Name "boxes"); One "slice" (Other "Tuple" [Many "elts" [Other "Slice" [Data "lower" "None"; Data "upper" "None"; Data "step" "None"]; Other "Slice" [One "lower" (Other "Constant" [Data "value" "1"]); Data "upper" "None"; Data "step" "None"]]])])]]]; Other "Assign" [Many "targets" [Name "boxes_num"]; One "value" (Call (Attribute (Name "paddle") "to_tensor") [Name "boxes_num"] [Other "keyword" [Data "arg" "dtype"; One "value" (Other "Constant" [Data "value" "'int32'"])]])]; Other "Assign" [Many "targets" [Other "Subscript" [One "value" (Name "kwargs"); One "slice" (Other "Constant" [Data "value" "'x'"])]]; One "value" (Call (Attribute (Name "kwargs") "pop") [Other "Constant" [Data "value" "'input'"]] [])]; Other "Assign" [Many "targets" [Other "Subscript" [One "value" (Name "kwargs"); One "slice" (Other "Constant" [Data "value" "'boxes'"])]]; One "value" (Name "boxes")]; Other "Assign" [Many "targets" [Other "Subscript" [One "value" (Name "kwargs"); One "slice" (Other "Constant" [Data "value" "'boxes_num'"])]]; One "value" (Name "boxes_num")]; Other "Return" [One "value" (Call (Attribute (Attribute (Attribute (Name "paddle") "vision") "ops") "psroi_pool") [] [Other "keyword" [Data "arg" "None"; One "value" (Name "kwargs")]])]]; Many "decorator_list" []; Data "returns" "None"]].
(** api_matcher.py:5418-5441 [BoxesConvertMatcher] *)
Definition helper_41 : list node :=
  [Other "FunctionDef" [Data "name" "roi_align"; One "args" (Other "arguments" [Many "posonlyargs" []; Many "args" []; One "vararg" (Other "arg" [Data "arg" "args"; Data "annotation" "None"]); Many "kwonlyargs" []; Many "kw_defaults" []; One "kwarg" (Other "arg" [Data "arg" "kwargs"; Data "annotation" "None"]); Many "defaults" []]); Many "body" [Other "Assign" [Many "targets" [Name "input"]; One "value" (Other "IfExp" [One "test" (Other "Compare" [One "left" (Call (Name "len") [Name "args"] []); Many "ops" [Other "Gt" []]; Many "comparators" [Other "Constant" [Data "value" "0"]]]); One "body" (Other "Subscript" [One "value" (Name "args"); One "slice" (Other "Constant" [Data "value" "0"])]); One "orelse" (Call (Attribute (Name "kwargs") "get") [Other "Constant" [Data "value" "'input'"]] [])])]; Other "Assign" [Many "targets" [Name "boxes"]; One "value" (Other "IfExp" [One "test" (Other "Compare" [One "left" (Call (Name "len") [Name "args"] []); Many "ops" [Other "Gt" []]; Many "comparators" [Other "Constant" [Data "value" "1"]]]); One "body" (Other "Subscript" [One "value" (Name "args"); One "slice" (Other "Constant" [Data "value" "1"])]); One "orelse" (Call (Attribute (Name "kwargs") "get") [Other "Constant" [Data "value" "'boxes'"]] [])])]; Other "Assign" [Many "targets" [Name "batch_size"]; One "value" (Other "Subscript" [One "value" (Attribute (Name "input") "shape"); One "slice" (Other "Constant" [Data "value" "0"])])]; Other "If" [One "test" (Call (Name "isinstance") [Name "boxes"; Name "list"] []); Many "body" [Other "Assign" [Many "targets" [Name "boxes_num"]; One "value" (Other "BinOp" [One "left" (Other "ListComp" [One "elt" (Call (Name "len") [Name "box"] []); Many "generators" [Other "comprehension" [One "target" (Name "box"); One "iter" (Name "boxes"); Many "ifs" []; Data "is_async" "0"]]]); One "op" (Other "Add" []); One "right" (Other "BinOp" [One "left" (Other "List" [Many "elts" [Other "Constant" [Data "value" "0"]]]); One "op" (Other "Mult" []); One "right" (Other "BinOp" [One "left" (Name "batch_size"); One "op" (Other "Sub" []); One "right" (Call (Name "len") [Name "boxes"] [])])])])]; Other "Assign" [Many "targets" [Name "boxes"]; One "value" (Other "IfExp" [One "test" (Name "boxes"); One "body" (Call (Attribute (Name "paddle") "concat") [Name "boxes"] []); One "orelse" (Call (Attribute (Name "paddle") "zeros") [Other "List" [Many "elts" [Other "Constant" [Data "value" "0"]; Other "Constant" [Data "value" "4"]]]] [])])]]; Many "orelse" [Other "Assign" [Many "targets" [Name "boxes_num"]; One "value" (Other "ListComp" [One "elt" (Call (Attribute (Other "Compare" [One "left" (Other "Subscript" [One "value" (Name "boxes"); One "slice" (Other "Tuple" [Many "elts" [Other "Slice" [Data "lower" "None"; Data "upper" "None"; Data "step" "None"]; Other "Constant" [Data "value" "0"]]])]); Many "ops" [Other "Eq" []]; Many "comparators" [Name "i"]]) "sum") [] []); Many "generators" [Other "comprehension" [One "target" (Name "i"); One "iter" (Call (Name "range") [Name "batch_size"] []); Many "ifs" []; Data "is_async" "0"]]])]; Other "Assign" [Many "targets" [Name "boxes"]; One "value" (Other "Subscript" [One "value" (Name "boxes"); One "slice" (Other "Tuple" [Many "elts" [Other "Slice" [Data "lower" "None"; Data "upper" "None"; Data "step" "None"]; Other "Slice" [One "lower" (Other "Constant" [Data "value" "1"]); Data "upper" "None"; Data "step" "None"]]])])]]]; Other "Assign" [Many "targets" [Name "boxes_num"]; One "value" (Call (Attribute (Name "paddle") "to_tensor") [Name "boxes_num"] [Other "keyword" [Data "arg" "dtype"; One "value" (Other "Constant" [Data "value" "'int32'"])]])]; Other "Assign" [Many "targets" [Other "Subscript" [One "value" (Name "kwargs"); One "slice" (Other "Constant" [Data "value" "'x'"])]]; One "value" (Call (Attribute (Name "kwargs") "pop") [Other "Constant" [Data "value" "'input'"]] [])]; Other "Assign" [Many "targets" [Other "Subscript" [One "value" (Name "kwargs"); One "slice" (Other "Constant" [Data "value" "'boxes'"])]]; One "value" (Name "boxes")]; Other "Assign" [Many "targets" [Other "Subscript" [One "value" (Name "kwargs"); One "slice" (Other "Constant" [Data "value" "'boxes_num'"])]]; One "value" (Name "boxes_num")]; Other "Return" [One "value" (Call (Attribute (Attribute (Attribute (Name "paddle") "vision") "ops") "roi_align") [] [Other "keyword" [Data "arg" "None"; One "value" (Name "kwargs")]])]]; Many "decorator_list" []; Data "returns" "None"]].
(** api_matcher.py:5418-5441 [BoxesConvertMatcher] *)
Definition helper_42 : list node :=
  [Other "FunctionDef" [Data "name" "roi_pool"; One "args" (Other "arguments" [Many "posonlyargs" []; Many "args" []; One "vararg" (Other "arg" [Data "arg" "args"; Data "annotation" "None"]); Many "kwonlyargs" []; Many "kw_defaults" []; One "kwarg" (Other "arg" [Data "arg" "kwargs"; Data "annotation" "None"]); Many "defaults" []]); Many "body" [Other "Assign" [Many "targets" [Name "input"]; One "value" (Other "IfExp" [One "test" (Other "Compare" [One "left" (Call (Name "len") [Name "args"] []); Many "ops" [Other "Gt" []]; Many "comparators" [Other "Constant" [Data "value" "0"]]]); One "body" (Other "Subscript" [One "value" (Name "args"); One "slice" (Other "Constant" [Data "value" "0"])]); One "orelse" (Call (Attribute (Name "kwargs") "get") [Other "Constant" [Data "value" "'input'"]] [])])]; Other "Assign" [Many "targets" [Name "boxes"]; One "value" (Other "IfExp" [One "test" (Other "Compare" [One "left" (Call (Name "len") [Name "args"] []); Many "ops" [Other "Gt" []]; Many "comparators" [Other "Constant" [Data "value" "1"]]]); One "body" (Other "Subscript" [One "value" (Name "args"); One "slice" (Other "Constant" [Data "value" "1"])]); One "orelse" (Call (Attribute (Name "kwargs") "get") [Other "Constant" [Data "value" "'boxes'"]] [])])]; Other "Assign" [Many "targets" [Name "batch_size"]; One "value" (Other "Subscript" [One "value" (Attribute (Name "input") "shape"); One "slice" (Other "Constant" [Data "value" "0"])])]; Other "If" [One "test" (Call (Name "isinstance") [Name "boxes"; Name "list"] []); Many "body" [Other "Assign" [Many "targets" [Name "boxes_num"]; One "value" (Other "BinOp" [One "left" (Other "ListComp" [One "elt" (Call (Name "len") [Name "box"] []); Many "generators" [Other "comprehension" [One "target" (Name "box"); One "iter" (Name "boxes"); Many "ifs" []; Data "is_async" "0"]]]); One "op" (Other "Add" []); One "right" (Other "BinOp" [One "left" (Other "List" [Many "elts" [Other "Constant" [Data "value" "0"]]]); One "op" (Other "Mult" []); One "right" (Other "BinOp" [One "left" (Name "batch_size"); One "op" (Other "Sub" []); One "right" (Call (Name "len") [Name "boxes"] [])])])])]; Other "Assign" [Many "targets" [Name "boxes"]; One "value" (Other "IfExp" [One "test" (Name "boxes"); One "body" (Call (Attribute (Name "paddle") "concat") [Name "boxes"] []); One "orelse" (Call (Attribute (Name "paddle") "zeros") [Other "List" [Many "elts" [Other "Constant" [Data "value" "0"]; Other "Constant" [Data "value" "4"]]]] [])])]]; Many "orelse" [Other "Assign" [Many "targets" [Name "boxes_num"]; One "value" (Other "ListComp" [One "elt" (Call (Attribute (Other "Compare" [One "left" (Other "Subscript" [One "value" (Name "boxes"); One "slice" (Other "Tuple" [Many "elts" [Other "Slice" [Data "lower" "None"; Data "upper" "None"; Data "step" "None"]; Other "Constant" [Data "value" "0"]]])]); Many "ops" [Other "Eq" []]; Many "comparators" [Name "i"]]) "sum") [] []); Many "generators" [Other "comprehension" [One "target" (Name "i"); One "iter" (Call (Name "range") [Name "batch_size"] []); Many "ifs" []; Data "is_async" "0"]]])]; Other "Assign" [Many "targets" [Name "boxes"]; One "value" (Other "Subscript" [One "value" (Name "boxes"); One "slice" (Other "Tuple" [Many "elts" [Other "Slice" [Data "lower" "None"; Data "upper" "None"; Data "step" "None"]; Other "Slice" [One "lower" (Other "Constant" [Data "value" "1"]); Data "upper" "None"; Data "step" "None"]]])])]]]; Other "Assign" [Many "targets" [Name "boxes_num"]; One "value" (Call (Attribute (Name "paddle") "to_tensor") [Name "boxes_num"] [Other "keyword" [Data "arg" "dtype"; One "value" (Other "Constant" [Data "value" "'int32'"])]])]; Other "Assign" [Many "targets" [Other "Subscript" [One "value" (Name "kwargs"); One "slice" (Other "Constant" [Data "value" "'x'"])]]; One "value" (Call (Attribute (Name "kwargs") "pop") [Other "Constant" [Data "value" "'input'"]] [])]; Other "Assign" [Many "targets" [Other "Subscript" [One "value" (Name "kwargs"); One "slice" (Other "Constant" [Data "value" "'boxes'"])]]; One "value" (Name "boxes")]; Other "Assign" [Many "targets" [Other "Subscript" [One "value" (Name "kwargs"); One "slice" (Other "Constant" [Data "value" "'boxes_num'"])]]; One "value" (Name "boxes_num")]; Other "Return" [One "value" (Call (Attribute (Attribute (Attribute (Name "paddle") "vision") "ops") "roi_pool") [] [Other "keyword" [Data "arg" "None"; One "value" (Name "kwargs")]])]]; Many "decorator_list" []; Data "returns" "None"]].
(** api_matcher.py:5501-5509 [GRUCellMatcher] *)
Definition helper_43 : list node :=
  [Other "ClassDef" [Data "name" "GRUCell"; Many "bases" [Attribute (Attribute (Name "paddle") "nn") "GRUCell"]; Many "keywords" []; Many "body" [Other "FunctionDef" [Data "name" "forward"; One "args" (Other "arguments" [Many "posonlyargs" []; Many "args" [Other "arg" [Data "arg" "self"; Data "annotation" "None"]; Other "arg" [Data "arg" "inputs"; Data "annotation" "None"]; Other "arg" [Data "arg" "states"; Data "annotation" "None"]]; Data "vararg" "None"; Many "kwonlyargs" []; Many "kw_defaults" []; Data "kwarg" "None"; Many "defaults" [Other "Constant" [Data "value" "None"]]]); Many "body" [Other "Return" [One "value" (Other "Subscript" [One "value" (Call (Attribute (Call (Name "super") [] []) "forward") [Name "inputs"; Name "states"] []); One "slice" (Other "Constant" [Data "value" "0"])])]]; Many "decorator_list" []; Data "returns" "None"]]; Many "decorator_list" []]].
(** api_matcher.py:5518-5526 [LSTMCellMatcher] *)
Definition helper_44 : list node :=
  [Other "ClassDef" [Data "name" "LSTMCell"; Many "bases" [Attribute (Attribute (Name "paddle") "nn") "LSTMCell"]; Many "keywords" []; Many "body" [Other "FunctionDef" [Data "name" "forward"; One "args" (Other "arguments" [Many "posonlyargs" []; Many "args" [Other "arg" [Data "arg" "self"; Data "annotation" "None"]; Other "arg" [Data "arg" "inputs"; Data "annotation" "None"]; Other "arg" [Data "arg" "states"; Data "annotation" "None"]]; Data "vararg" "None"; Many "kwonlyargs" []; Many "kw_defaults" []; Data "kwarg" "None"; Many "defaults" [Other "Constant" [Data "value" "None"]]]); Many "body" [Other "Return" [One "value" (Other "Subscript" [One "value" (Call (Attribute (Call (Name "super") [] []) "forward") [Name "inputs"; Name "states"] []); One "slice" (Other "Constant" [Data "value" "1"])])]]; Many "decorator_list" []; Data "returns" "None"]]; Many "decorator_list" []]].
(** api_matcher.py:5535-5543 [RNNCellMatcher] *)
Definition helper_45 : list node :=
  [Other "ClassDef" [Data "name" "SimpleRNNCell"; Many "bases" [Attribute (Attribute (Name "paddle") "nn") "SimpleRNNCell"]; Many "keywords" []; Many "body" [Other "FunctionDef" [Data "name" "forward"; One "args" (Other "arguments" [Many "posonlyargs" []; Many "args" [Other "arg" [Data "arg" "self"; Data "annotation" "None"]; Other "arg" [Data "arg" "inputs"; Data "annotation" "None"]; Other "arg" [Data "arg" "states"; Data "annotation" "None"]]; Data "vararg" "None"; Many "kwonlyargs" []; Many "kw_defaults" []; Data "kwarg" "None"; Many "defaults" [Other "Constant" [Data "value" "None"]]]); Many "body" [Other "Return" [One "value" (Other "Subscript" [One "value" (Call (Attribute (Call (Name "super") [] []) "forward") [Name "inputs"; Name "states"] []); One "slice" (Other "Constant" [Data "value" "0"])])]]; Many "decorator_list" []; Data "returns" "None"]]; Many "decorator_list" []]].
(** api_matcher.py:5628-5642 [OnnxExportMatcher] *)
Definition helper_46 : list node :=
  [Other "FunctionDef" [Data "name" "onnx_export"; One "args" (Other "arguments" [Many "posonlyargs" []; Many "args" [Other "arg" [Data "arg" "model"; Data "annotation" "None"]; Other "arg" [Data "arg" "f"; Data "annotation" "None"]]; Data "vararg" "None"; Many "kwonlyargs" []; Many "kw_defaults" []; Data "kwarg" "None"; Many "defaults" []]); Many "body" [Other "Assign" [Many "targets" [Name "model"]; One "value" (Call (Name "Logic") [] [])]; Other "Expr" [One "value" (Call (Attribute (Attribute (Name "paddle") "jit") "to_static") [Name "model"] [])]; Other "Assign" [Many "targets" [Name "last_dot_index"]; One "value" (Call (Attribute (Name "filename") "rfind") [Other "Constant" [Data "value" "'.'"]] [])]; Other "If" [One "test" (Other "Compare" [One "left" (Name "last_dot_index"); Many "ops" [Other "Eq" []]; Many "comparators" [Other "UnaryOp" [One "op" (Other "USub" []); One "operand" (Other "Constant" [Data "value" "1"])]]]); Many "body" [Other "Assign" [Many "targets" [Name "path"]; One "value" (Name "f")]]; Many "orelse" [Other "Assign" [Many "targets" [Name "path"]; One "value" (Other "Subscript" [One "value" (Name "f"); One "slice" (Other "Slice" [Data "lower" "None"; One "upper" (Name "last_dot_index"); Data "step" "None"])])]]]; Other "Return" [One "value" (Call (Attribute (Attribute (Name "paddle") "onnx") "export") [Name "model"; Name "path"] [])]]; Many "decorator_list" []; Data "returns" "None"]].
(** api_matcher.py:5657-5665 [SetPerProcessMemoryFractionMatcher] *)
Definition helper_47 : list node :=
  [Import [MkAlias "os" None];
   Other "FunctionDef" [Data "name" "set_per_process_memory_fraction"; One "args" (Other "arguments" [Many "posonlyargs" []; Many "args" [Other "arg" [Data "arg" "fraction"; Data "annotation" "None"]]; Data "vararg" "None"; Many "kwonlyargs" []; Many "kw_defaults" []; Data "kwarg" "None"; Many "defaults" []]); Many "body" [Other "Assign" [Many "targets" [Other "Subscript" [One "value" (Attribute (Name "os") "environ"); One "slice" (Other "Constant" [Data "value" "'FLAGS_fraction_of_gpu_memory_to_use'"])]]; One "value" (Call (Name "str") [Name "fraction"] [])]]; Many "decorator_list" []; Data "returns" "None"]].
(** api_matcher.py:5680-5697 [CudaGetRngStateMatcher] *)
Definition helper_48 : list node :=
  [Import [MkAlias "os" None];
   Other "FunctionDef" [Data "name" "cuda_get_rng_state"; One "args" (Other "arguments" [Many "posonlyargs" []; Many "args" [Other "arg" [Data "arg" "device"; Data "annotation" "None"]]; Data "vararg" "None"; Many "kwonlyargs" []; Many "kw_defaults" []; Data "kwarg" "None"; Many "defaults" []]); Many "body" [Other "If" [One "test" (Call (Name "isinstance") [Name "device"; Name "int"] []); Many "body" [Other "Return" [One "value" (Other "Subscript" [One "value" (Call (Attribute (Name "paddle") "get_cuda_rng_state") [] []); One "slice" (Name "device")])]]; Many "orelse" [Other "If" [One "test" (Call (Name "isinstance") [Name "device"; Name "str"] []); Many "body" [Other "Assign" [Many "targets" [Name "parts"]; One "value" (Call (Attribute (Name "device") "split") [Other "Constant" [Data "value" "':'"]] [])]; Other "If" [One "test" (Other "BoolOp" [One "op" (Other "And" []); Many "values" [Other "Compare" [One "left" (Call (Name "len") [Name "parts"] []); Many "ops" [Other "Eq" []]; Many "comparators" [Other "Constant" [Data "value" "2"]]]; Call (Attribute (Call (Attribute (Other "Subscript" [One "value" (Name "parts"); One "slice" (Other "Constant" [Data "value" "1"])]) "strip") [] []) "isdigit") [] []]]); Many "body" [Other "Return" [One "value" (Other "Subscript" [One "value" (Call (Attribute (Name "paddle") "get_cuda_rng_state") [] []); One "slice" (Call (Name "int") [Call (Attribute (Other "Subscript" [One "value" (Name "parts"); One "slice" (Other "Constant" [Data "value" "1"])]) "strip") [] []] [])])]]; Many "orelse" []]; Other "Return" [One "value" (Other "Subscript" [One "value" (Call (Attribute (Name "paddle") "get_cuda_rng_state") [] []); One "slice" (Other "Constant" [Data "value" "0"])])]]; Many "orelse" [Other "If" [One "test" (Call (Name "isinstance") [Name "device"; Attribute (Name "paddle") "CUDAPlace"] []); Many "body" [Other "Return" [One "value" (Other "Subscript" [One "value" (Call (Attribute (Name "paddle") "get_cuda_rng_state") [] []); One "slice" (Call (Attribute (Name "device") "get_device_id") [] [])])]]; Many "orelse" []]]]]]]; Many "decorator_list" []; Data "returns" "None"]].
(** api_matcher.py:5714-5722 [ForeachMatcher] *)
Definition helper_49 : list node :=
  [Other "FunctionDef" [Data "name" "foreach_operator"; One "args" (Other "arguments" [Many "posonlyargs" []; Many "args" [Other "arg" [Data "arg" "func"; Data "annotation" "None"]; Other "arg" [Data "arg" "tensors"; Data "annotation" "None"]]; Data "vararg" "None"; Many "kwonlyargs" []; Many "kw_defaults" []; Data "kwarg" "None"; Many "defaults" []]); Many "body" [Other "Return" [One "value" (Other "ListComp" [One "elt" (Call (Name "func") [Name "x"] []); Many "generators" [Other "comprehension" [One "target" (Name "x"); One "iter" (Name "tensors"); Many "ifs" []; Data "is_async" "0"]]])]]; Many "decorator_list" []; Data "returns" "None"]].
(** api_matcher.py:5748-5756 [ForeachErfcMatcher] *)
Definition helper_50 : list node :=
  [Other "FunctionDef" [Data "name" "foreach_erfc"; One "args" (Other "arguments" [Many "posonlyargs" []; Many "args" [Other "arg" [Data "arg" "tensors"; Data "annotation" "None"]]; Data "vararg" "None"; Many "kwonlyargs" []; Many "kw_defaults" []; Data "kwarg" "None"; Many "defaults" []]); Many "body" [Other "Return" [One "value" (Other "ListComp" [One "elt" (Other "BinOp" [One "left" (Other "Constant" [Data "value" "1"]); One "op" (Other "Sub" []); One "right" (Call (Attribute (Name "paddle") "erf") [Name "x"] [])]); Many "generators" [Other "comprehension" [One "target" (Name "x"); One "iter" (Name "tensors"); Many "ifs" []; Data "is_async" "0"]]])]]; Many "decorator_list" []; Data "returns" "None"]].
(** api_matcher.py:5770-5777 [ForeachErfc_Matcher] *)
Definition helper_51 : list node :=
  [Other "FunctionDef" [Data "name" "foreach_erfc_"; One "args" (Other "arguments" [Many "posonlyargs" []; Many "args" [Other "arg" [Data "arg" "tensors"; Data "annotation" "None"]]; Data "vararg" "None"; Many "kwonlyargs" []; Many "kw_defaults" []; Data "kwarg" "None"; Many "defaults" []]); Many "body" [Other "Return" [One "value" (Other "ListComp" [One "elt" (Call (Attribute (Name "paddle") "assign") [Other "BinOp" [One "left" (Other "Constant" [Data "value" "1"]); One "op" (Other "Sub" []); One "right" (Call (Attribute (Name "paddle") "erf") [Name "x"] [])]; Name "x"] []); Many "generators" [Other "comprehension" [One "target" (Name "x"); One "iter" (Name "tensors"); Many "ifs" []; Data "is_async" "0"]]])]]; Many "decorator_list" []; Data "returns" "None"]].
(** api_matcher.py:5791-5806 [ReduceScatterTensorMatcher] *)
Definition helper_52 : list node :=
  [Other "FunctionDef" [Data "name" "reduce_scatter_tensor"; One "args" (Other "arguments" [Many "posonlyargs" []; Many "args" [Other "arg" [Data "arg" "output"; Data "annotation" "None"]; Other "arg" [Data "arg" "input"; Data "annotation" "None"]; Other "arg" [Data "arg" "op"; Data "annotation" "None"]; Other "arg" [Data "arg" "group"; Data "annotation" "None"]; Other "arg" [Data "arg" "async_op"; Data "annotation" "None"]]; Data "vararg" "None"; Many "kwonlyargs" []; Many "kw_defaults" []; Data "kwarg" "None"; Many "defaults" []]); Many "body" [Other "If" [One "test" (Other "Compare" [One "left" (Name "async_op"); Many "ops" [Other "IsNot" []]; Many "comparators" [Other "Constant" [Data "value" "None"]]]); Many "body" [Other "Assign" [Many "targets" [Name "async_op"]; One "value" (Other "UnaryOp" [One "op" (Other "Not" []); One "operand" (Name "async_op")])]]; Many "orelse" []]; Other "Assign" [Many "targets" [Name "world_size"]; One "value" (Call (Attribute (Attribute (Name "paddle") "distributed") "get_world_size") [] [])]; Other "Assign" [Many "targets" [Name "input_list"]; One "value" (Other "List" [Many "elts" []])]; Other "If" [One "test" (Other "Compare" [One "left" (Other "Subscript" [One "value" (Attribute (Name "input") "shape"); One "slice" (Other "Constant" [Data "value" "0"])]); Many "ops" [Other "Eq" []]; Many "comparators" [Name "world_size"]]); Many "body" [Other "Assign" [Many "targets" [Name "input_list"]; One "value" (Call (Attribute (Name "paddle") "unstack") [Name "input"] [Other "keyword" [Data "arg" "axis"; One "value" (Other "Constant" [Data "value" "0"])]])]]; Many "orelse" [Other "Assign" [Many "targets" [Name "input_list"]; One "value" (Call (Attribute (Name "paddle") "split") [Name "input"] [Other "keyword" [Data "arg" "num_or_sections"; One "value" (Name "world_size")]; Other "keyword" [Data "arg" "axis"; One "value" (Other "Constant" [Data "value" "0"])]])]]]; Other "Expr" [One "value" (Call (Attribute (Attribute (Name "paddle") "distributed") "reduce_scatter") [Name "output"; Name "input_list"; Name "op"; Name "group"; Name "async_op"] [])]]; Many "decorator_list" []; Data "returns" "None"]].
(** api_matcher.py:5826-5833 [UtilsSetModuleMatcher] *)
Definition helper_53 : list node :=
  [Other "FunctionDef" [Data "name" "set_module"; One "args" (Other "arguments" [Many "posonlyargs" []; Many "args" [Other "arg" [Data "arg" "obj"; Data "annotation" "None"]; Other "arg" [Data "arg" "mode"; Data "annotation" "None"]]; Data "vararg" "None"; Many "kwonlyargs" []; Many "kw_defaults" []; Data "kwarg" "None"; Many "defaults" []]); Many "body" [Other "Assign" [Many "targets" [Attribute (Name "obj") "__module__"]; One "value" (Name "mode")]]; Many "decorator_list" []; Data "returns" "None"]].
(** api_matcher.py:5847-5862 [AllGatherIntoTensorMatcher] *)
Definition helper_54 : list node :=
  [Other "FunctionDef" [Data "name" "all_gather_into_tensor"; One "args" (Other "arguments" [Many "posonlyargs" []; Many "args" [Other "arg" [Data "arg" "output_tensor"; Data "annotation" "None"]; Other "arg" [Data "arg" "input_tensor"; Data "annotation" "None"]; Other "arg" [Data "arg" "group"; Data "annotation" "None"]; Other "arg" [Data "arg" "async_op"; Data "annotation" "None"]]; Data "vararg" "None"; Many "kwonlyargs" []; Many "kw_defaults" []; Data "kwarg" "None"; Many "defaults" []]); Many "body" [Other "If" [One "test" (Other "Compare" [One "left" (Name "async_op"); Many "ops" [Other "IsNot" []]; Many "comparators" [Other "Constant" [Data "value" "None"]]]); Many "body" [Other "Assign" [Many "targets" [Name "async_op"]; One "value" (Other "UnaryOp" [One "op" (Other "Not" []); One "operand" (Name "async_op")])]]; Many "orelse" []]; Other "Assign" [Many "targets" [Name "tensor_list"]; One "value" (Other "List" [Many "elts" []])]; Other "Expr" [One "value" (Call (Attribute (Attribute (Name "paddle") "distributed") "all_gather") [] [Other "keyword" [Data "arg" "tensor_list"; One "value" (Name "tensor_list")]; Other "keyword" [Data "arg" "tensor"; One "value" (Name "input_tensor")]; Other "keyword" [Data "arg" "group"; One "value" (Name "group")]; Other "keyword" [Data "arg" "sync_op"; One "value" (Name "async_op")]])]; Other "If" [One "test" (Other "Compare" [One "left" (Other "BinOp" [One "left" (Call (Attribute (Attribute (Name "paddle") "distributed") "get_world_size") [] []); One "op" (Other "Mult" []); One "right" (Other "Subscript" [One "value" (Attribute (Name "input_tensor") "shape"); One "slice" (Other "Constant" [Data "value" "0"])])]); Many "ops" [Other "Eq" []]; Many "comparators" [Other "Subscript" [One "value" (Attribute (Name "output_tensor") "shape"); One "slice" (Other "Constant" [Data "value" "0"])]]]); Many "body" [Other "Expr" [One "value" (Call (Attribute (Name "paddle") "assign") [Call (Attribute (Name "paddle") "concat") [Name "tensor_list"] [Other "keyword" [Data "arg" "axis"; One "value" (Other "Constant" [Data "value" "0"])]]] [Other "keyword" [Data "arg" "output"; One "value" (Name "output_tensor")]])]]; Many "orelse" [Other "Expr" [One "value" (Call (Attribute (Name "paddle") "assign") [Call (Attribute (Name "paddle") "stack") [Name "tensor_list"] [Other "keyword" [Data "arg" "axis"; One "value" (Other "Constant" [Data "value" "0"])]]] [Other "keyword" [Data "arg" "output"; One "value" (Name "output_tensor")]])]]]; Other "Return" [One "value" (Name "output_tensor")]]; Many "decorator_list" []; Data "returns" "None"]].
(** api_matcher.py:5881-5889 [ForeachTensorMatcher] *)
Definition helper_55 : list node :=
  [Other "FunctionDef" [Data "name" "foreach_Tensor_"; One "args" (Other "arguments" [Many "posonlyargs" []; Many "args" [Other "arg" [Data "arg" "tensors"; Data "annotation" "None"]; Other "arg" [Data "arg" "method_name"; Data "annotation" "None"]]; Data "vararg" "None"; Many "kwonlyargs" []; Many "kw_defaults" []; Data "kwarg" "None"; Many "defaults" []]); Many "body" [Other "Assign" [Many "targets" [Name "method_name"]; One "value" (Other "Subscript" [One "value" (Call (Attribute (Name "method_name") "rpartition") [Other "Constant" [Data "value" "'.'"]] []); One "slice" (Other "UnaryOp" [One "op" (Other "USub" []); One "operand" (Other "Constant" [Data "value" "1"])])])]; Other "Return" [One "value" (Other "ListComp" [One "elt" (Call (Call (Name "getattr") [Name "x"; Name "method_name"] []) [] []); Many "generators" [Other "comprehension" [One "target" (Name "x"); One "iter" (Name "tensors"); Many "ifs" []; Data "is_async" "0"]]])]]; Many "decorator_list" []; Data "returns" "None"]].
(** api_matcher.py:5903-5921 [LinalgLuSolveMatcher] *)
Definition helper_56 : list node :=
  [Other "FunctionDef" [Data "name" "linalg_lu_solve"; One "args" (Other "arguments" [Many "posonlyargs" []; Many "args" [Other "arg" [Data "arg" "LU"; Data "annotation" "None"]; Other "arg" [Data "arg" "pivots"; Data "annotation" "None"]; Other "arg" [Data "arg" "B"; Data "annotation" "None"]; Other "arg" [Data "arg" "left"; Data "annotation" "None"]; Other "arg" [Data "arg" "adjoint"; Data "annotation" "None"]; Other "arg" [Data "arg" "out"; Data "annotation" "None"]]; Data "vararg" "None"; Many "kwonlyargs" []; Many "kw_defaults" []; Data "kwarg" "None"; Many "defaults" [Other "Constant" [Data "value" "True"]; Other "Constant" [Data "value" "False"]; Other "Constant" [Data "value" "None"]]]); Many "body" [Other "If" [One "test" (Name "left"); Many "body" [Other "Assign" [Many "targets" [Name "trans"]; One "value" (Other "IfExp" [One "test" (Name "adjoint"); One "body" (Other "Constant" [Data "value" "'H'"]); One "orelse" (Other "Constant" [Data "value" "'N'"])])]; Other "Assign" [Many "targets" [Name "result"]; One "value" (Call (Attribute (Attribute (Name "paddle") "linalg") "lu_solve") [] [Other "keyword" [Data "arg" "lu"; One "value" (Name "LU")]; Other "keyword" [Data "arg" "pivots"; One "value" (Name "pivots")]; Other "keyword" [Data "arg" "b"; One "value" (Name "B")]; Other "keyword" [Data "arg" "trans"; One "value" (Name "trans")]])]]; Many "orelse" [Other "Assign" [Many "targets" [Name "trans"]; One "value" (Other "IfExp" [One "test" (Name "adjoint"); One "body" (Other "Constant" [Data "value" "'N'"]); One "orelse" (Other "Constant" [Data "value" "'H'"])])]; Other "Assign" [Many "targets" [Name "BH"]; One "value" (Attribute (Call (Attribute (Name "B") "conj") [] []) "T")]; Other "Assign" [Many "targets" [Name "XH"]; One "value" (Call (Attribute (Attribute (Name "paddle") "linalg") "lu_solve") [] [Other "keyword" [Data "arg" "lu"; One "value" (Name "LU")]; Other "keyword" [Data "arg" "pivots"; One "value" (Name "pivots")]; Other "keyword" [Data "arg" "b"; One "value" (Name "BH")]; Other "keyword" [Data "arg" "trans"; One "value" (Name "trans")]])]; Other "Assign" [Many "targets" [Name "result"]; One "value" (Attribute (Call (Attribute (Name "XH") "conj") [] []) "T")]]]; Other "If" [One "test" (Other "Compare" [One "left" (Name "out"); Many "ops" [Other "IsNot" []]; Many "comparators" [Other "Constant" [Data "value" "None"]]]); Many "body" [Other "Return" [One "value" (Call (Attribute (Name "paddle") "assign") [Name "result"] [Other "keyword" [Data "arg" "output"; One "value" (Name "out")]])]]; Many "orelse" [Other "Return" [One "value" (Name "result")]]]]; Many "decorator_list" []; Data "returns" "None"]].

(** All of them, with the class; the classes that inherit theirs come last. *)
Definition helper_texts : list (string * list node) :=
  [("InferenceModeMatcher", helper_00);
   ("PaddleFlagMatcher", helper_01);
   ("TRFMPreTrainedModelMatcher", helper_02);
   ("TensorAddMatcher", helper_03);
   ("TensorSubtractMatcher", helper_04);
   ("TensorMultiplyMatcher", helper_05);
   ("TensorDivideMatcher", helper_06);
   ("TransposeMatcher", helper_07);
   ("TensorTransposeMatcher", helper_08);
   ("TransformsPositiveDefiniteTransformMatcher", helper_09);
   ("Device2StrBaseMatcher", helper_10);
   ("MaxMatcher", helper_11);
   ("MinMatcher", helper_12);
   ("TensorMaxMatcher", helper_13);
   ("TensorMinMatcher", helper_14);
   ("ScatterReduceMatcher", helper_15);
   ("SplitMatcher", helper_16);
   ("TensorIndexCopyMatcher", helper_17);
   ("FSoftMinMatcher", helper_18);
   ("TensorReshapeMatcher", helper_19);
   ("TensorTakeMatcher", helper_20);
   ("TensorSplitMatcher", helper_21);
   ("TensorRoundMatcher", helper_22);
   ("FAApplyRotaryEmbFuncMatcher", helper_23);
   ("NTupleMatcher", helper_24);
   ("Get_EnumMatcher", helper_25);
   ("SoftmaxMatcher", helper_26);
   ("LogSoftmaxMatcher", helper_27);
   ("FSoftmaxMatcher", helper_28);
   ("SoftminMatcher", helper_29);
   ("SymeigMatcher", helper_30);
   ("CanCastMatcher", helper_31);
   ("FloatPowerMatcher", helper_32);
   ("Device2IntMatcher", helper_33);
   ("TensorViewMatcher", helper_34);
   ("EmbeddingMatcher", helper_35);
   ("RpcRemoteMatcher", helper_36);
   ("SetNumInteropThreadsMatcher", helper_37);
   ("SetNumThreadsMatcher", helper_38);
   ("VOCDetectionMatcher", helper_39);
   ("BoxesConvertMatcher", helper_40);
   ("BoxesConvertMatcher", helper_41);
   ("BoxesConvertMatcher", helper_42);
   ("GRUCellMatcher", helper_43);
   ("LSTMCellMatcher", helper_44);
   ("RNNCellMatcher", helper_45);
   ("OnnxExportMatcher", helper_46);
   ("SetPerProcessMemoryFractionMatcher", helper_47);
   ("CudaGetRngStateMatcher", helper_48);
   ("ForeachMatcher", helper_49);
   ("ForeachErfcMatcher", helper_50);
   ("ForeachErfc_Matcher", helper_51);
   ("ReduceScatterTensorMatcher", helper_52);
   ("UtilsSetModuleMatcher", helper_53);
   ("AllGatherIntoTensorMatcher", helper_54);
   ("ForeachTensorMatcher", helper_55);
   ("LinalgLuSolveMatcher", helper_56);
   ("TorchDevice2StrMatcher", helper_10);
   ("Device2StrMatcher", helper_10);
   ("CudaStreamMatcher", helper_10)].
