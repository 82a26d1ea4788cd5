(** Generated from paconvert/api_matcher.py: the bodies of the [generate_code]
    methods, translated statement by statement into the language of Generate.v.
    Loops over a literal list are unrolled; named fields of [str.format] are made
    positional (their arguments have no effect); [textwrap.dedent] of a literal is
    evaluated; [super().generate_code] and [M.generate_code(self, ..)] refer to the
    block of that method; log calls do not occur.  In [HistogramMatcher] the loop
    over "kwargs_change" is specialised to the value ["range": ["min", "max"]] both of
    its rows have.  Data only. *)
From Verif Require Import PyStr PyDict Args Generate.

(** api_matcher.py:4708-4710 [Func2Attribute.generate_code] *)
Definition g_Func2Attribute : block := (of_stmts [
  SLet "code" (EFormat (ELit "{}") (of_exps [EApi]));
  SReturn (EVar "code")]).

(** api_matcher.py:275-305 [FSInitializeModelParallelMatcher.generate_code] *)
Definition g_FSInitializeModelParallelMatcher : block := (of_stmts [
  SIf (ENot (EIn "pipeline_length" "kwargs")) (of_stmts [
    SSet "kwargs" "pipeline_length" (ELit "1")]) Done;
  SLet "model_parallel_size" (EUnique "model_parallel_size");
  SLet "data_parallel_size" (EUnique "data_parallel_size");
  SLet "strategy" (EUnique "strategy");
  SLet "API_TEMPLATE" (ELit "
{} = int(min(paddle.distributed.get_world_size(),{}))
{} = int(paddle.distributed.get_world_size()/ ({} * {}))
{} = paddle.distributed.fleet.DistributedStrategy()
{}.hybrid_configs = dict(dp_degree={}, mp_degree={}, pp_degree={})
paddle.distributed.fleet.init(is_collective=True, strategy={})
");
  SLet "code" (EFormat (EVar "API_TEMPLATE") (of_exps [(EVar "model_parallel_size"); (EGet "kwargs" "model_parallel_size_"); (EVar "data_parallel_size"); (EVar "model_parallel_size"); (EGet "kwargs" "pipeline_length"); (EVar "strategy"); (EVar "strategy"); (EVar "data_parallel_size"); (EVar "model_parallel_size"); (EGet "kwargs" "pipeline_length"); (EVar "strategy")]));
  SReturn (EVar "code")]).

(** api_matcher.py:309-313 [FSModelParallelIsInitializedMatcher.generate_code] *)
Definition g_FSModelParallelIsInitializedMatcher : block := (of_stmts [
  SLet "code" (ELit "paddle.distributed.fleet.base.topology._HYBRID_PARALLEL_GROUP is not None");
  SReturn (EVar "code")]).

(** api_matcher.py:99-166 [GenericMatcher.generate_code] *)
Definition g_GenericMatcher : block := (of_stmts [
  SChange "kwargs" "kwargs" ["layout"; "device"; "memory_format"; "inplace"; "generator"; "non_blocking"; "async"];
  SDefaults "kwargs";
  SLet "dtype_v" (ELit "None");
  SIf (EAnd (EIn "dtype" "kwargs") (ENot (ETarget "dtype"))) (of_stmts [
    SLet "dtype_v" (EPop "kwargs" "dtype")]) Done;
  SLet "pin_memory_v" (ELit "(False)");
  SIf (EAnd (EIn "pin_memory" "kwargs") (ENot (ETarget "pin_memory"))) (of_stmts [
    SLet "pin_memory_v" (EPop "kwargs" "pin_memory")]) Done;
  SLet "stop_gradient_v" (ELit "None");
  SIf (EAnd (EIn "requires_grad" "kwargs") (ENot (ETarget "requires_grad"))) (of_stmts [
    SLet "stop_gradient_v" (ECat (ELit "not ") (EStr (Strip "()") (EPop "kwargs" "requires_grad")))]) Done;
  SLet "out_v" (ELit "None");
  SIf (EAnd (EIn "out" "kwargs") (ENot (ETarget "out"))) (of_stmts [
    SLet "out_v" (EPop "kwargs" "out")]) Done;
  SLet "code" (EFormat (ELit "{}({})") (of_exps [EApi; (EKwargs "kwargs")]));
  SIf (ENot (ETest (Is "None") (EVar "dtype_v"))) (of_stmts [
    SLet "code" (ECat (EVar "code") (EFormat (ELit ".astype({})") (of_exps [(EVar "dtype_v")])))]) Done;
  SIf (ENot (ETest (Is "(False)") (EVar "pin_memory_v"))) (of_stmts [
    SLet "code" (ECat (EVar "code") (ELit ".pin_memory()"))]) Done;
  SIf (EAnd (ENot (ETest (Is "None") (EVar "stop_gradient_v"))) (ENot (ETest (Is "None") (EVar "out_v")))) (of_stmts [
    SLet "API_TEMPLATE" (ELit "
paddle.assign({}, output={})
{}.stop_gradient = {}
{}
");
    SLet "code" (EFormat (EVar "API_TEMPLATE") (of_exps [(EVar "code"); (EVar "out_v"); (EVar "out_v"); (EVar "stop_gradient_v"); (EVar "out_v")]))]) (of_stmts [
    SIf (EAnd (ENot (ETest (Is "None") (EVar "stop_gradient_v"))) (ETest (Is "None") (EVar "out_v"))) (of_stmts [
      SLet "API_TEMPLATE" (ELit "
{} = {}
{}.stop_gradient = {}
{}
");
      SLet "out" (EUnique "out");
      SLet "code" (EFormat (EVar "API_TEMPLATE") (of_exps [(EVar "out"); (EVar "code"); (EVar "out"); (EVar "stop_gradient_v"); (EVar "out")]))]) (of_stmts [
      SIf (EAnd (ENot (ETest (Is "None") (EVar "out_v"))) (ETest (Is "None") (EVar "stop_gradient_v"))) (of_stmts [
        SLet "API_TEMPLATE" (ELit "
paddle.assign({}, output={})
");
        SLet "code" (EFormat (EVar "API_TEMPLATE") (of_exps [(EVar "code"); (EVar "out_v")]))]) Done])]);
  SReturn (EVar "code")]).

(** api_matcher.py:327-333 [FSParallelEmbeddingMatcher.generate_code] *)
Definition g_FSParallelEmbeddingMatcher : block := (of_stmts [
  SLet "code" (EFormat (ELit "paddle.distributed.fleet.meta_parallel.                VocabParallelEmbedding(num_embeddings={},                embedding_dim={},weight_attr=paddle.nn.initializer.Constant(0))") (of_exps [(EGet "kwargs" "num_embeddings"); (EGet "kwargs" "embedding_dim")]));
  SReturn (EVar "code")]).

(** api_matcher.py:1460-1461 [FAFlashAttnFuncMatcher.generate_code] *)
Definition g_FAFlashAttnFuncMatcher : block := (of_stmts [
  SReturn (ECat (EGenerate g_GenericMatcher "kwargs") (ELit "[0]"))]).

(** api_matcher.py:1465-1483 [FAFlashAttnUnpaddedFuncMatcher.generate_code] *)
Definition g_FAFlashAttnUnpaddedFuncMatcher : block := (of_stmts [
  SChange "kwargs" "kwargs" [];
  SIf (ENot (EIn "scale" "kwargs")) (of_stmts [
    SLet "API_TEMPLATE" (ELit "
import math
assert paddle.device.cuda.get_device_capability()[0] >= 8, ""Device capabilities should be at least 8""
{}({})[0]
");
    SSet "kwargs" "scale" (EFormat (ELit "math.sqrt({}.shape[-1])") (of_exps [(EGet "kwargs" "query")]))]) (of_stmts [
    SLet "API_TEMPLATE" (ELit "
assert paddle.device.cuda.get_device_capability()[0] >= 8, ""Device capabilities should be at least 8""
{}({})[0]
")]);
  SReturn (EFormat (EVar "API_TEMPLATE") (of_exps [EApi; (EKwargs "kwargs")]))]).

(** api_matcher.py:3875-3887 [FARmsNorm.generate_code] *)
Definition g_FARmsNorm : block := (of_stmts [
  SLet "API_TEMPLATE" (ELit "
paddle.incubate.nn.functional.fused_rms_norm({}, {}, paddle.zeros_like({}), {},len({}.shape)-1)[0]
");
  SReturn (EFormat (EVar "API_TEMPLATE") (of_exps [(EGet "kwargs" "x"); (EGet "kwargs" "weight"); (EGet "kwargs" "weight"); (EGet "kwargs" "epsilon"); (EGet "kwargs" "x")]))]).

(** api_matcher.py:4868-4878 [OsEnvironGetMatcher.generate_code] *)
Definition g_OsEnvironGetMatcher : block := (of_stmts [
  SIf (EIn "key" "kwargs") (of_stmts [
    SIf (ETest (Is """""""WORLD_SIZE""""""") (EGet "kwargs" "key")) (of_stmts [
      SLet "code" (ELit "paddle.distributed.get_world_size()")]) (of_stmts [
      SIf (ETest (Is """""""LOCAL_RANK""""""") (EGet "kwargs" "key")) (of_stmts [
        SLet "code" (ELit "paddle.distributed.get_rank()")]) (of_stmts [
        SLet "code" (ELit "misidentify")])])]) (of_stmts [
    SLet "code" (ELit "misidentify")]);
  SReturn (EVar "code")]).

(** api_matcher.py:2901-2939 [AddBmmMatcher.generate_code] *)
Definition g_AddBmmMatcher : block := (of_stmts [
  SIf (ENot (EIn "input" "kwargs")) (of_stmts [
    SSet "kwargs" "input" EClass]) Done;
  SIf (ENot (EIn "beta" "kwargs")) (of_stmts [
    SSet "kwargs" "beta" (ELit "1")]) Done;
  SIf (ENot (EIn "alpha" "kwargs")) (of_stmts [
    SSet "kwargs" "alpha" (ELit "1")]) Done;
  SIf (EAnd (EIn "out" "kwargs") (ENot (ETest (Is "None") (EGet "kwargs" "out")))) (of_stmts [
    SLet "API_TEMPLATE" (ELit "
paddle.assign(paddle.add({}*{}, {}*paddle.sum(paddle.bmm({}, {}), axis=0)), output={})
");
    SLet "code" (EFormat (EVar "API_TEMPLATE") (of_exps [(EGet "kwargs" "beta"); (EGet "kwargs" "input"); (EGet "kwargs" "alpha"); (EGet "kwargs" "batch1"); (EGet "kwargs" "batch2"); (EGet "kwargs" "out")]))]) (of_stmts [
    SLet "API_TEMPLATE" (ELit "
paddle.add({}*{}, {}*paddle.sum(paddle.bmm({}, {}), axis=0))
");
    SLet "code" (EFormat (EVar "API_TEMPLATE") (of_exps [(EGet "kwargs" "beta"); (EGet "kwargs" "input"); (EGet "kwargs" "alpha"); (EGet "kwargs" "batch1"); (EGet "kwargs" "batch2")]))]);
  SReturn (EVar "code")]).

(** api_matcher.py:2943-2970 [AddBmm_Matcher.generate_code] *)
Definition g_AddBmm_Matcher : block := (of_stmts [
  SIf (ENot (EIn "input" "kwargs")) (of_stmts [
    SSet "kwargs" "input" EClass]) Done;
  SIf (EIn "beta" "kwargs") (of_stmts [
    SSet "kwargs" "beta" (EFormat (ELit "paddle.to_tensor({}, dtype={}.dtype)") (of_exps [(EPop "kwargs" "beta"); (EGet "kwargs" "input")]))]) (of_stmts [
    SSet "kwargs" "beta" (EFormat (ELit "paddle.to_tensor(1, dtype={}.dtype)") (of_exps [(EGet "kwargs" "input")]))]);
  SIf (ENot (EIn "alpha" "kwargs")) (of_stmts [
    SSet "kwargs" "alpha" (ELit "1")]) Done;
  SLet "API_TEMPLATE" (ELit "
{}.multiply_({}).add_({}*paddle.sum(paddle.bmm({}, {}), axis=0))
");
  SLet "code" (EFormat (EVar "API_TEMPLATE") (of_exps [(EGet "kwargs" "input"); (EGet "kwargs" "beta"); (EGet "kwargs" "alpha"); (EGet "kwargs" "batch1"); (EGet "kwargs" "batch2")]));
  SReturn (EVar "code")]).

(** api_matcher.py:2291-2321 [AddCMulMatcher.generate_code] *)
Definition g_AddCMulMatcher : block := (of_stmts [
  SIf (ENot (EIn "input" "kwargs")) (of_stmts [
    SSet "kwargs" "input" EClass]) Done;
  SIf (ENot (EIn "value" "kwargs")) (of_stmts [
    SSet "kwargs" "value" (ELit "1")]) Done;
  SIf (EAnd (EIn "out" "kwargs") (ENot (ETest (Is "None") (EGet "kwargs" "out")))) (of_stmts [
    SLet "API_TEMPLATE" (ELit "
paddle.assign({} + {} * {} * {}, output={})
");
    SLet "code" (EFormat (EVar "API_TEMPLATE") (of_exps [(EGet "kwargs" "input"); (EGet "kwargs" "value"); (EGet "kwargs" "tensor1"); (EGet "kwargs" "tensor2"); (EGet "kwargs" "out")]))]) (of_stmts [
    SLet "API_TEMPLATE" (ELit "
paddle.add({}, {} * {} * {})
");
    SLet "code" (EFormat (EVar "API_TEMPLATE") (of_exps [(EGet "kwargs" "input"); (EGet "kwargs" "value"); (EGet "kwargs" "tensor1"); (EGet "kwargs" "tensor2")]))]);
  SReturn (EVar "code")]).

(** api_matcher.py:2325-2337 [AddCMul_Matcher.generate_code] *)
Definition g_AddCMul_Matcher : block := (of_stmts [
  SIf (ENot (EIn "value" "kwargs")) (of_stmts [
    SSet "kwargs" "value" (ELit "1")]) Done;
  SLet "API_TEMPLATE" (ELit "
{}.add_({} * {} * {})
");
  SLet "code" (EFormat (EVar "API_TEMPLATE") (of_exps [EClass; (EGet "kwargs" "value"); (EGet "kwargs" "tensor1"); (EGet "kwargs" "tensor2")]));
  SReturn (EVar "code")]).

(** api_matcher.py:2809-2857 [AddMRMatcher.generate_code] *)
Definition g_AddMRMatcher : block := (of_stmts [
  SIf (ENot (EIn "input" "kwargs")) (of_stmts [
    SSet "kwargs" "input" EClass]) Done;
  SLet "param1" ENone;
  SLet "param2" ENone;
  SIf (EIn "mat1" "kwargs") (of_stmts [
    SLet "param1" (EGet "kwargs" "mat1");
    SLet "param2" (EGet "kwargs" "mat2")]) Done;
  SIf (EIn "mat" "kwargs") (of_stmts [
    SLet "param1" (EGet "kwargs" "mat");
    SLet "param2" (EGet "kwargs" "vec")]) Done;
  SIf (EIn "vec1" "kwargs") (of_stmts [
    SLet "param1" (EGet "kwargs" "vec1");
    SLet "param2" (EGet "kwargs" "vec2")]) Done;
  SIf (EIn "batch1" "kwargs") (of_stmts [
    SLet "param1" (EGet "kwargs" "batch1");
    SLet "param2" (EGet "kwargs" "batch2")]) Done;
  SIf (ENot (EIn "beta" "kwargs")) (of_stmts [
    SSet "kwargs" "beta" (ELit "1")]) Done;
  SIf (ENot (EIn "alpha" "kwargs")) (of_stmts [
    SSet "kwargs" "alpha" (ELit "1")]) Done;
  SIf (EAnd (EIn "out" "kwargs") (ENot (ETest (Is "None") (EGet "kwargs" "out")))) (of_stmts [
    SLet "API_TEMPLATE" (ELit "
paddle.assign(paddle.add({}*{}, {}*{}({}, {})), output={})
");
    SLet "code" (EFormat (EVar "API_TEMPLATE") (of_exps [(EGet "kwargs" "beta"); (EGet "kwargs" "input"); (EGet "kwargs" "alpha"); EApi; (EVar "param1"); (EVar "param2"); (EGet "kwargs" "out")]))]) (of_stmts [
    SLet "API_TEMPLATE" (ELit "
paddle.add({}*{}, {}*{}({}, {}))
");
    SLet "code" (EFormat (EVar "API_TEMPLATE") (of_exps [(EGet "kwargs" "beta"); (EGet "kwargs" "input"); (EGet "kwargs" "alpha"); EApi; (EVar "param1"); (EVar "param2")]))]);
  SReturn (EVar "code")]).

(** api_matcher.py:3544-3560 [AdjointMatcher.generate_code] *)
Definition g_AdjointMatcher : block := (of_stmts [
  SIf (ENot (EIn "input" "kwargs")) (of_stmts [
    SSet "kwargs" "input" EClass]) Done;
  SLet "API_TEMPLATE" (ELit "
{} = list(range({}.ndim))
{}[-1], {}[-2] = {}[-2], {}[-1]
paddle.conj(paddle.transpose({}, perm={}))
");
  SLet "perm" (EUnique "perm");
  SLet "code" (EFormat (EVar "API_TEMPLATE") (of_exps [(EVar "perm"); (EGet "kwargs" "input"); (EVar "perm"); (EVar "perm"); (EVar "perm"); (EVar "perm"); (EGet "kwargs" "input"); (EVar "perm")]));
  SReturn (EVar "code")]).

(** api_matcher.py:3223-3226 [AllcloseMatcher.generate_code] *)
Definition g_AllcloseMatcher : block := (of_stmts [
  SLet "code" (EGenerate g_GenericMatcher "kwargs");
  SLet "code" (EFormat (ELit "{}.item()") (of_exps [(EVar "code")]));
  SReturn (EVar "code")]).

(** api_matcher.py:570-577 [DimOrderMatcher.generate_code] *)
Definition g_DimOrderMatcher : block := (of_stmts [
  SLet "API_TEMPLATE" (ELit "
tuple([i for i in range(len({}.shape))])
");
  SLet "code" (EFormat (EVar "API_TEMPLATE") (of_exps [EClass]));
  SReturn (EVar "code")]).

(** api_matcher.py:4684-4704 [TensorInplaceReserveTypeMatcher.generate_code] *)
Definition g_TensorInplaceReserveTypeMatcher : block := (of_stmts [
  SLet "API_TEMPLATE" (ELit "
_x_dtype_ = {}.dtype
{}({}).cast_(_x_dtype_)
");
  SIf (EIn "other" "kwargs") (of_stmts [
    SLet "other_v" (EPop "kwargs" "other");
    SIf (EConvert "other") (of_stmts [
      SLet "other_v" (EFormat (ELit "paddle.to_tensor({})") (of_exps [(EVar "other_v")]))]) Done;
    SSet "kwargs" "y" (EVar "other_v")]) Done;
  SLet "code" (EFormat (EVar "API_TEMPLATE") (of_exps [EClass; EApi; (EKwargs "kwargs")]));
  SReturn (EVar "code")]).

(** api_matcher.py:1449-1456 [EqualMatcher.generate_code] *)
Definition g_EqualMatcher : block := (of_stmts [
  SChange "kwargs" "kwargs" [];
  SLet "API_TEMPLATE" (ELit "
{}({}).item()
");
  SReturn (EFormat (EVar "API_TEMPLATE") (of_exps [EApi; (EKwargs "kwargs")]))]).

(** api_matcher.py:2593-2612 [ErfCMatcher.generate_code] *)
Definition g_ErfCMatcher : block := (of_stmts [
  SIf (ENot (EIn "input" "kwargs")) (of_stmts [
    SSet "kwargs" "input" EClass]) Done;
  SIf (EAnd (EIn "out" "kwargs") (ENot (ETest (Is "None") (EGet "kwargs" "out")))) (of_stmts [
    SLet "API_TEMPLATE" (ELit "
paddle.assign(1. - paddle.erf({}), output={})
");
    SLet "code" (EFormat (EVar "API_TEMPLATE") (of_exps [(EGet "kwargs" "input"); (EGet "kwargs" "out")]))]) (of_stmts [
    SLet "API_TEMPLATE" (ELit "
1. - paddle.erf({})
");
    SLet "code" (EFormat (EVar "API_TEMPLATE") (of_exps [(EGet "kwargs" "input")]))]);
  SReturn (EVar "code")]).

(** api_matcher.py:2616-2627 [ErfC_Matcher.generate_code] *)
Definition g_ErfC_Matcher : block := (of_stmts [
  SIf (ENot (EIn "input" "kwargs")) (of_stmts [
    SSet "kwargs" "input" EClass]) Done;
  SLet "API_TEMPLATE" (ELit "
paddle.erf_({}).multiply_(paddle.to_tensor(-1.)).add_(paddle.to_tensor(1.))
");
  SLet "code" (EFormat (EVar "API_TEMPLATE") (of_exps [(EGet "kwargs" "input")]));
  SReturn (EVar "code")]).

(** api_matcher.py:4621-4633 [FloatPowerMatcher.generate_code] *)
Definition g_FloatPowerMatcher : block := (of_stmts [
  SUtils;
  SIf (EIn "input" "kwargs") (of_stmts [
    SLet "code" (EFormat (ELit "paddle.pow({}.cast(paddle.float64), cast_exponent({}))") (of_exps [(EGet "kwargs" "input"); (EGet "kwargs" "exponent")]));
    SIf (EIn "out" "kwargs") (of_stmts [
      SLet "code" (EFormat (ELit "paddle.assign({}, {})") (of_exps [(EVar "code"); (EGet "kwargs" "out")]))]) Done]) (of_stmts [
    SLet "code" (EFormat (ELit "{}.cast(paddle.float64).pow(cast_exponent({}))") (of_exps [EClass; (EGet "kwargs" "exponent")]))]);
  SReturn (EVar "code")]).

(** api_matcher.py:4637-4640 [FloatPowerInplaceMatcher.generate_code] *)
Definition g_FloatPowerInplaceMatcher : block := (of_stmts [
  SReturn (EFormat (ELit "{}.cast_(paddle.float64).pow_({})") (of_exps [EClass; (EGet "kwargs" "exponent")]))]).

(** api_matcher.py:234-251 [TensorFunc2PaddleFunc.generate_code] *)
Definition g_TensorFunc2PaddleFunc : block := (of_stmts [
  SChange "kwargs" "kwargs" ["layout"; "device"; "memory_format"; "inplace"; "generator"; "non_blocking"; "async"];
  SDefaults "kwargs";
  SLet "code" (EFormat (ELit "{}({}, {})") (of_exps [EApi; EClass; (EKwargs "kwargs")]));
  SReturn (EVar "code")]).

(** api_matcher.py:3441-3460 [HistcMatcher.generate_code] *)
Definition g_HistcMatcher : block := (of_stmts [
  SIf (EIn "input" "kwargs") (of_stmts [
    SLet "input" (EGet "kwargs" "input")]) (of_stmts [
    SLet "input" EClass]);
  SIf (EAnd (EIn "out" "kwargs") (ENot (ETest (Is "None") (EGet "kwargs" "out")))) (of_stmts [
    SLet "out_v" (EPop "kwargs" "out");
    SLet "code" (EFormat (ELit "paddle.assign({}({}).astype({}.dtype), output={})") (of_exps [EApi; (EKwargs "kwargs"); (EVar "input"); (EVar "out_v")]))]) (of_stmts [
    SLet "code" (EFormat (ELit "{}({}).astype({}.dtype)") (of_exps [EApi; (EKwargs "kwargs"); (EVar "input")]))]);
  SReturn (EVar "code")]).

(** api_matcher.py:5076-5132 [HistogramMatcher.generate_code] *)
Definition g_HistogramMatcher : block := (of_stmts [
  SIf (EIn "range" "kwargs") (of_stmts [
    SSet "kwargs" "min" (EFormat (ELit "{}[0]") (of_exps [(EGet "kwargs" "range")]));
    SSet "kwargs" "max" (EFormat (ELit "{}[1]") (of_exps [(EGet "kwargs" "range")]));
    SDo (EPop "kwargs" "range")]) Done;
  SCopy "kwargs_bin_edges" "kwargs";
  SIf (EIn "weight" "kwargs_bin_edges") (of_stmts [
    SDo (EPop "kwargs_bin_edges" "weight")]) Done;
  SIf (EIn "density" "kwargs_bin_edges") (of_stmts [
    SDo (EPop "kwargs_bin_edges" "density")]) Done;
  SIf (EIn "out" "kwargs") (of_stmts [
    SLet "out_v" (EPop "kwargs" "out");
    SDo (EPop "kwargs_bin_edges" "out");
    SIf (ETest (Has "Tensor") ETorch) (of_stmts [
      SLet "API_TEMPLATE" (ELit "
out1, out2 = {paddleclass}.histogram({kwargs}).cast({out_v}[0].dtype), {paddleclass}.histogram_bin_edges({kwargs_bin_edges}).cast({out_v}[1].dtype)
paddle.assign(out1, {out_v}[0]), paddle.assign(out2, {out_v}[1])
");
      SLet "code" (EFormat (ELit "
out1, out2 = {}.histogram({}).cast({}[0].dtype), {}.histogram_bin_edges({}).cast({}[1].dtype)
paddle.assign(out1, {}[0]), paddle.assign(out2, {}[1])
") (of_exps [EClass; (EKwargs "kwargs"); (EVar "out_v"); EClass; (EKwargs "kwargs_bin_edges"); (EVar "out_v"); (EVar "out_v"); (EVar "out_v")]))]) (of_stmts [
      SLet "API_TEMPLATE" (ELit "
out1, out2 = paddle.histogram({kwargs}).cast({out_v}[0].dtype), paddle.histogram_bin_edges({kwargs_bin_edges}).cast({out_v}[1].dtype)
paddle.assign(out1, {out_v}[0]), paddle.assign(out2, {out_v}[1])
");
      SLet "code" (EFormat (ELit "
out1, out2 = paddle.histogram({}).cast({}[0].dtype), paddle.histogram_bin_edges({}).cast({}[1].dtype)
paddle.assign(out1, {}[0]), paddle.assign(out2, {}[1])
") (of_exps [(EKwargs "kwargs"); (EVar "out_v"); (EKwargs "kwargs_bin_edges"); (EVar "out_v"); (EVar "out_v"); (EVar "out_v")]))])]) (of_stmts [
    SIf (ETest (Has "Tensor") ETorch) (of_stmts [
      SLet "code" (EFormat (ELit "{}.histogram({}).cast({}.dtype), {}.histogram_bin_edges({}).cast({}.dtype)") (of_exps [EClass; (EKwargs "kwargs"); EClass; EClass; (EKwargs "kwargs_bin_edges"); EClass]))]) (of_stmts [
      SLet "code" (EFormat (ELit "paddle.histogram({}).cast({}.dtype), paddle.histogram_bin_edges({}).cast({}.dtype)") (of_exps [(EKwargs "kwargs"); (EGet "kwargs" "input"); (EKwargs "kwargs_bin_edges"); (EGet "kwargs" "input")]))])]);
  SReturn (EVar "code")]).

(** api_matcher.py:4750-4753 [Is_PinnedMatcher.generate_code] *)
Definition g_Is_PinnedMatcher : block := (of_stmts [
  SLet "code" (EFormat (ELit "'pinned' in str({}.place)") (of_exps [EClass]));
  SReturn (EVar "code")]).

(** api_matcher.py:4653-4655 [TensorIsSignedMatcher.generate_code] *)
Definition g_TensorIsSignedMatcher : block := (of_stmts [
  SLet "code" (EFormat (ELit "{}.dtype not in [paddle.uint8]") (of_exps [EClass]));
  SReturn (EVar "code")]).

(** api_matcher.py:2750-2769 [LogAddExp2Matcher.generate_code] *)
Definition g_LogAddExp2Matcher : block := (of_stmts [
  SIf (ENot (EIn "input" "kwargs")) (of_stmts [
    SSet "kwargs" "input" EClass]) Done;
  SIf (EAnd (EIn "out" "kwargs") (ENot (ETest (Is "None") (EGet "kwargs" "out")))) (of_stmts [
    SLet "API_TEMPLATE" (ELit "
paddle.assign(paddle.log2(2. ** {} + 2. ** {}), output={})
");
    SLet "code" (EFormat (EVar "API_TEMPLATE") (of_exps [(EGet "kwargs" "input"); (EGet "kwargs" "other"); (EGet "kwargs" "out")]))]) (of_stmts [
    SLet "API_TEMPLATE" (ELit "
paddle.log2(2. ** {} + 2. ** {})
");
    SLet "code" (EFormat (EVar "API_TEMPLATE") (of_exps [(EGet "kwargs" "input"); (EGet "kwargs" "other")]))]);
  SReturn (EVar "code")]).

(** api_matcher.py:2974-2985 [LogDetMatcher.generate_code] *)
Definition g_LogDetMatcher : block := (of_stmts [
  SIf (ENot (EIn "input" "kwargs")) (of_stmts [
    SSet "kwargs" "input" EClass]) Done;
  SLet "API_TEMPLATE" (ELit "
paddle.log(paddle.linalg.det({}))
");
  SLet "code" (EFormat (EVar "API_TEMPLATE") (of_exps [(EGet "kwargs" "input")]));
  SReturn (EVar "code")]).

(** api_matcher.py:2259-2287 [NarrowCopyMatcher.generate_code] *)
Definition g_NarrowCopyMatcher : block := (of_stmts [
  SIf (ENot (EIn "input" "kwargs")) (of_stmts [
    SSet "kwargs" "input" EClass]) Done;
  SIf (ENot (EIn "out" "kwargs")) (of_stmts [
    SSet "kwargs" "out" ENone]) Done;
  SLet "API_TEMPLATE" (ELit "
{} = ({}.shape[{}] + {}) if {} < 0 else {}
paddle.assign(paddle.slice({}, [{}], [{}], [{} + {}]), {})
");
  SLet "start" (EUnique "start");
  SLet "code" (EFormat (EVar "API_TEMPLATE") (of_exps [(EVar "start"); (EGet "kwargs" "input"); (EGet "kwargs" "dim"); (EGet "kwargs" "start"); (EGet "kwargs" "start"); (EGet "kwargs" "start"); (EGet "kwargs" "input"); (EGet "kwargs" "dim"); (EVar "start"); (EVar "start"); (EGet "kwargs" "length"); (EGet "kwargs" "out")]));
  SReturn (EVar "code")]).

(** api_matcher.py:4327-4348 [QrMatcher.generate_code] *)
Definition g_QrMatcher : block := (of_stmts [
  SLet "some_v" (EIf (EIn "some" "kwargs") (EPop "kwargs" "some") ENone);
  SLet "out_v" (EIf (EIn "out" "kwargs") (EPop "kwargs" "out") ENone);
  SIf (EVar "some_v") (of_stmts [
    SSet "kwargs" "mode" (EIf (ENot (ETest (Is "(False)") (EVar "some_v"))) (ELit "'complete'") (ELit "'reduced'"))]) Done;
  SIf (EVar "out_v") (of_stmts [
    SSet "kwargs" "x" (EPop "kwargs" "input");
    SLet "API_TEMPLATE" (ELit "
tmp_q, tmp_r = {}({})
paddle.assign(tmp_q, {}[0]), paddle.assign(tmp_r, {}[1])
");
    SLet "code" (EFormat (EVar "API_TEMPLATE") (of_exps [EApi; (EKwargs "kwargs"); (EVar "out_v"); (EVar "out_v")]));
    SReturn (EVar "code")]) Done;
  SReturn (EGenerate g_GenericMatcher "kwargs")]).

(** api_matcher.py:3381-3394 [SelectMatcher.generate_code] *)
Definition g_SelectMatcher : block := (of_stmts [
  SIf (ENot (EIn "input" "kwargs")) (of_stmts [
    SSet "kwargs" "input" EClass]) Done;
  SLet "API_TEMPLATE" (ELit "
paddle.index_select({}, index=paddle.to_tensor([{}]), axis={}).squeeze({})
");
  SLet "code" (EFormat (EVar "API_TEMPLATE") (of_exps [(EGet "kwargs" "input"); (EGet "kwargs" "index"); (EGet "kwargs" "dim"); (EGet "kwargs" "dim")]));
  SReturn (EVar "code")]).

(** api_matcher.py:3364-3377 [TensorSetMatcher.generate_code] *)
Definition g_TensorSetMatcher : block := (of_stmts [
  SIf (EIn "size" "kwargs") (of_stmts [
    SSet "kwargs" "shape" (EPop "kwargs" "size")]) Done;
  SIf (EIn "storage_offset" "kwargs") (of_stmts [
    SLet "offset_val" (EPop "kwargs" "storage_offset");
    SIf (EAnd (EIn "source" "kwargs") (ENot (ETest (Is "None") (EGet "kwargs" "source")))) (of_stmts [
      SLet "src_var" (EGet "kwargs" "source");
      SSet "kwargs" "offset" (EFormat (ELit "{} * {}.itemsize()") (of_exps [(EVar "offset_val"); (EVar "src_var")]))]) (of_stmts [
      SSet "kwargs" "offset" (EVar "offset_val")])]) Done;
  SReturn (EGenerate g_GenericMatcher "kwargs")]).

(** api_matcher.py:3411-3437 [SLogDetMatcher.generate_code] *)
Definition g_SLogDetMatcher : block := (of_stmts [
  SIf (EIn "input" "kwargs") (of_stmts [
    SLet "x_v" (EPop "kwargs" "input")]) (of_stmts [
    SIf (EIn "A" "kwargs") (of_stmts [
      SLet "x_v" (EPop "kwargs" "A")]) (of_stmts [
      SLet "x_v" EClass])]);
  SIf (EAnd (EIn "out" "kwargs") (ENot (ETest (Is "None") (EGet "kwargs" "out")))) (of_stmts [
    SLet "out_v" (EPop "kwargs" "out");
    SLet "API_TEMPLATE" (ELit "
res = paddle.linalg.slogdet({})
paddle.assign(res[0], {}[0]), paddle.assign(res[1], {}[1])
");
    SLet "code" (EFormat (EVar "API_TEMPLATE") (of_exps [(EVar "x_v"); (EVar "out_v"); (EVar "out_v")]))]) (of_stmts [
    SLet "API_TEMPLATE" (ELit "
res = paddle.linalg.slogdet({})
res[0], res[1].astype(""float32"")
");
    SLet "code" (EFormat (EVar "API_TEMPLATE") (of_exps [(EVar "x_v")]))]);
  SReturn (EVar "code")]).

(** api_matcher.py:3898-3918 [SortMatcher.generate_code] *)
Definition g_SortMatcher : block := (of_stmts [
  SIf (ENot (EIn "input" "kwargs")) (of_stmts [
    SSet "kwargs" "x" EClass]) Done;
  SChange "kwargs" "kwargs" [];
  SIf (ENot (EIn "out" "kwargs")) (of_stmts [
    SLet "code" (EFormat (ELit "paddle.sort({}), paddle.argsort({})") (of_exps [(EKwargs "kwargs"); (EKwargs "kwargs")]))]) (of_stmts [
    SLet "out_v" (EPop "kwargs" "out");
    SLet "API_TEMPLATE" (ELit "
out1, out2 = paddle.sort({}), paddle.argsort({})
paddle.assign(out1, {}[0]), paddle.assign(out2, {}[1])
");
    SLet "code" (EFormat (EVar "API_TEMPLATE") (of_exps [(EKwargs "kwargs"); (EKwargs "kwargs"); (EVar "out_v"); (EVar "out_v")]))]);
  SReturn (EVar "code")]).

(** api_matcher.py:4352-4391 [SvdMatcher.generate_code] *)
Definition g_SvdMatcher : block := (of_stmts [
  SIf (EIn "compute_uv" "kwargs") (of_stmts [
    SReturn ENone]) Done;
  SIf (EIn "input" "kwargs") (of_stmts [
    SSet "kwargs" "x" (EPop "kwargs" "input")]) (of_stmts [
    SSet "kwargs" "x" EClass]);
  SIf (EIn "some" "kwargs") (of_stmts [
    SSet "kwargs" "full_matrices" (ECat (ELit "not ") (EStr (Strip "()") (EPop "kwargs" "some")))]) Done;
  SIf (EAnd (EIn "out" "kwargs") (ENot (ETest (Is "None") (EGet "kwargs" "out")))) (of_stmts [
    SLet "out_v" (EPop "kwargs" "out");
    SLet "API_TEMPLATE" (ELit "
tmp_u, tmp_s, tmp_v = {}({})
paddle.assign(tmp_u, {}[0]), paddle.assign(tmp_s, {}[1]), paddle.assign(tmp_v.conj().t(), {}[2])
");
    SLet "code" (EFormat (EVar "API_TEMPLATE") (of_exps [EApi; (EKwargs "kwargs"); (EVar "out_v"); (EVar "out_v"); (EVar "out_v")]))]) (of_stmts [
    SLet "API_TEMPLATE" (ELit "
tmp_u, tmp_s, tmp_v = {}({})
tmp_u, tmp_s, tmp_v.conj().t()
");
    SLet "code" (EFormat (EVar "API_TEMPLATE") (of_exps [EApi; (EKwargs "kwargs")]))]);
  SReturn (EVar "code")]).

(** api_matcher.py:4415-4419 [SymeigMatcher.generate_code] *)
Definition g_SymeigMatcher : block := (of_stmts [
  SUtils;
  SIf (ENot (EIn "input" "kwargs")) (of_stmts [
    SSet "kwargs" "input" EClass]) Done;
  SReturn (EFormat (ELit "convert_symeig({})") (of_exps [(EKwargs "kwargs")]))]).

(** api_matcher.py:559-566 [TensorToSparseCooMatcher.generate_code] *)
Definition g_TensorToSparseCooMatcher : block := (of_stmts [
  SLet "API_TEMPLATE" (ELit "
{}.to_sparse_coo(len({}.shape))
");
  SLet "code" (EFormat (EVar "API_TEMPLATE") (of_exps [EClass; EClass]));
  SReturn (EVar "code")]).

(** api_matcher.py:3060-3090 [TriangularSolveMatcher.generate_code] *)
Definition g_TriangularSolveMatcher : block := (of_stmts [
  SLet "out_v" (EIf (EIn "out" "kwargs") (EPop "kwargs" "out") ENone);
  SNew "new_kwargs";
  SSet "new_kwargs" "x" (EPop "kwargs" "A");
  SSet "new_kwargs" "y" (EPop "kwargs" "input");
  SUpdate "new_kwargs" "kwargs";
  SIf (EVar "out_v") (of_stmts [
    SLet "API_TEMPLATE" (ELit "
paddle.assign({}({}), {}[0]), paddle.assign({}, {}[1])
");
    SLet "code" (EFormat (EVar "API_TEMPLATE") (of_exps [EApi; (EKwargs "new_kwargs"); (EVar "out_v"); (EGet "new_kwargs" "x"); (EVar "out_v")]))]) (of_stmts [
    SLet "API_TEMPLATE" (ELit "
{}({}), {}
");
    SLet "code" (EFormat (EVar "API_TEMPLATE") (of_exps [EApi; (EKwargs "new_kwargs"); (EGet "new_kwargs" "x")]))]);
  SReturn (EVar "code")]).

(** api_matcher.py:3094-3096 [TensorTriangularSolveMatcher.generate_code] *)
Definition g_TensorTriangularSolveMatcher : block := (of_stmts [
  SSet "kwargs" "input" EClass;
  SReturn (EGenerate g_TriangularSolveMatcher "kwargs")]).

(** api_matcher.py:2069-2078 [TensorTypeMatcher.generate_code] *)
Definition g_TensorTypeMatcher : block := (of_stmts [
  SIf (EEmpty "kwargs") (of_stmts [
    SLet "code" (EFormat (ELit "str({}.dtype)") (of_exps [EClass]))]) (of_stmts [
    SIf (EIn "dst_type" "kwargs") (of_stmts [
      SLet "code" (EFormat (ELit "{}.astype({})") (of_exps [EClass; (EGet "kwargs" "dst_type")]))]) (of_stmts [
      SLet "code" (EFormat (ELit "{}.astype({})") (of_exps [EClass; (EGet "kwargs" "dtype")]))])]);
  SReturn (EVar "code")]).

(** api_matcher.py:3922-3931 [TensorWhereMatcher.generate_code] *)
Definition g_TensorWhereMatcher : block := (of_stmts [
  SLet "API_TEMPLATE" (ELit "
paddle.where({}, {}, {})
");
  SLet "code" (EFormat (EVar "API_TEMPLATE") (of_exps [(EGet "kwargs" "condition"); EClass; (EGet "kwargs" "other")]));
  SReturn (EVar "code")]).

(** api_matcher.py:2651-2673 [XLogYMatcher.generate_code] *)
Definition g_XLogYMatcher : block := (of_stmts [
  SIf (ENot (EIn "input" "kwargs")) (of_stmts [
    SSet "kwargs" "input" EClass]) Done;
  SIf (EIn "other" "kwargs") (of_stmts [
    SSet "kwargs" "other" (EFormat (ELit "paddle.to_tensor({})") (of_exps [(EPop "kwargs" "other")]))]) Done;
  SIf (EAnd (EIn "out" "kwargs") (ENot (ETest (Is "None") (EGet "kwargs" "out")))) (of_stmts [
    SLet "API_TEMPLATE" (ELit "
paddle.assign({} * paddle.log({}), output={})
");
    SLet "code" (EFormat (EVar "API_TEMPLATE") (of_exps [(EGet "kwargs" "input"); (EGet "kwargs" "other"); (EGet "kwargs" "out")]))]) (of_stmts [
    SLet "API_TEMPLATE" (ELit "
{} * paddle.log({})
");
    SLet "code" (EFormat (EVar "API_TEMPLATE") (of_exps [(EGet "kwargs" "input"); (EGet "kwargs" "other")]))]);
  SReturn (EVar "code")]).

(** api_matcher.py:2677-2691 [XLogY_Matcher.generate_code] *)
Definition g_XLogY_Matcher : block := (of_stmts [
  SIf (ENot (EIn "input" "kwargs")) (of_stmts [
    SSet "kwargs" "input" EClass]) Done;
  SIf (EIn "other" "kwargs") (of_stmts [
    SSet "kwargs" "other" (EFormat (ELit "paddle.to_tensor({})") (of_exps [(EPop "kwargs" "other")]))]) Done;
  SLet "API_TEMPLATE" (ELit "
{}.multiply_(paddle.log({}))
");
  SLet "code" (EFormat (EVar "API_TEMPLATE") (of_exps [(EGet "kwargs" "input"); (EGet "kwargs" "other")]));
  SReturn (EVar "code")]).

(** api_matcher.py:5724-5733 [ForeachMatcher.generate_code] *)
Definition g_ForeachMatcher : block := (of_stmts [
  SUtils;
  SLet "API_TEMPLATE" (ELit "
foreach_operator({}, {})
");
  SLet "code" (EFormat (EVar "API_TEMPLATE") (of_exps [EApi; (EGet "kwargs" "self")]));
  SReturn (EVar "code")]).

(** api_matcher.py:5891-5899 [ForeachTensorMatcher.generate_code] *)
Definition g_ForeachTensorMatcher : block := (of_stmts [
  SUtils;
  SLet "API_TEMPLATE" (ELit "
foreach_Tensor_({},""{}"")
");
  SLet "code" (EFormat (EVar "API_TEMPLATE") (of_exps [(EGet "kwargs" "self"); EApi]));
  SReturn (EVar "code")]).

(** api_matcher.py:5758-5766 [ForeachErfcMatcher.generate_code] *)
Definition g_ForeachErfcMatcher : block := (of_stmts [
  SUtils;
  SLet "API_TEMPLATE" (ELit "
foreach_erfc({})
");
  SLet "code" (EFormat (EVar "API_TEMPLATE") (of_exps [(EGet "kwargs" "self")]));
  SReturn (EVar "code")]).

(** api_matcher.py:5779-5787 [ForeachErfc_Matcher.generate_code] *)
Definition g_ForeachErfc_Matcher : block := (of_stmts [
  SUtils;
  SLet "API_TEMPLATE" (ELit "
foreach_erfc_({})
");
  SLet "code" (EFormat (EVar "API_TEMPLATE") (of_exps [(EGet "kwargs" "self")]));
  SReturn (EVar "code")]).

(** api_matcher.py:2341-2371 [AddCDivMatcher.generate_code] *)
Definition g_AddCDivMatcher : block := (of_stmts [
  SIf (ENot (EIn "input" "kwargs")) (of_stmts [
    SSet "kwargs" "input" EClass]) Done;
  SIf (ENot (EIn "value" "kwargs")) (of_stmts [
    SSet "kwargs" "value" (ELit "1")]) Done;
  SIf (EAnd (EIn "out" "kwargs") (ENot (ETest (Is "None") (EGet "kwargs" "out")))) (of_stmts [
    SLet "API_TEMPLATE" (ELit "
paddle.assign({} + {} * {} / {}, output={})
");
    SLet "code" (EFormat (EVar "API_TEMPLATE") (of_exps [(EGet "kwargs" "input"); (EGet "kwargs" "value"); (EGet "kwargs" "tensor1"); (EGet "kwargs" "tensor2"); (EGet "kwargs" "out")]))]) (of_stmts [
    SLet "API_TEMPLATE" (ELit "
paddle.add({}, {} * {} / {})
");
    SLet "code" (EFormat (EVar "API_TEMPLATE") (of_exps [(EGet "kwargs" "input"); (EGet "kwargs" "value"); (EGet "kwargs" "tensor1"); (EGet "kwargs" "tensor2")]))]);
  SReturn (EVar "code")]).

(** api_matcher.py:1106-1118 [ADVariableMatcher.generate_code] *)
Definition g_ADVariableMatcher : block := (of_stmts [
  SLet "API_TEMPLATE" (ELit "
{}.stop_gradient = not {}
{}
");
  SIf (EIn "requires_grad" "kwargs") (of_stmts [
    SReturn (EFormat (EVar "API_TEMPLATE") (of_exps [(EGet "kwargs" "data"); (EGet "kwargs" "requires_grad"); (EGet "kwargs" "data")]))]) Done;
  SReturn (EGet "kwargs" "data")]).

(** api_matcher.py:1949-1951 [CudnnIsAvailableMatcher.generate_code] *)
Definition g_CudnnIsAvailableMatcher : block := (of_stmts [
  SLet "code" (ELit "bool(paddle.device.get_cudnn_version())");
  SReturn (EVar "code")]).

(** api_matcher.py:4606-4608 [CanCastMatcher.generate_code] *)
Definition g_CanCastMatcher : block := (of_stmts [
  SUtils;
  SReturn (EFormat (ELit "can_cast(from_={}, to={})") (of_exps [(EGet "kwargs" "from_"); (EGet "kwargs" "to")]))]).

(** api_matcher.py:4778-4800 [Device2StrMatcher.generate_code] *)
Definition g_Device2StrMatcher : block := (of_stmts [
  SIf (EIn "device" "kwargs") (of_stmts [
    SLet "device" (EPop "kwargs" "device");
    SIf (ETest Digits (EStr (Strip "()") (EVar "device"))) (of_stmts [
      SLet "device" (EFormat (ELit "'gpu:{}'") (of_exps [(EStr (Strip "()") (EVar "device"))]))]) (of_stmts [
      SIf (ETest (Has "cuda") (EVar "device")) (of_stmts [
        SLet "device" (EStr (Replace "cuda" "gpu") (EVar "device"))]) (of_stmts [
        SUtils;
        SLet "device" (EFormat (ELit "device2str({})") (of_exps [(EVar "device")]))])]);
    SSet "kwargs" "device" (EVar "device")]) Done;
  SReturn (EGenerate g_GenericMatcher "kwargs")]).

(** api_matcher.py:2099-2105 [CudaSeedMatcher.generate_code] *)
Definition g_CudaSeedMatcher : block := (of_stmts [
  SLet "API_TEMPLATE" (ELit "
paddle.get_cuda_rng_state()[0].current_seed()
");
  SReturn (EVar "API_TEMPLATE")]).

(** api_matcher.py:5667-5676 [SetPerProcessMemoryFractionMatcher.generate_code] *)
Definition g_SetPerProcessMemoryFractionMatcher : block := (of_stmts [
  SUtils;
  SLet "API_TEMPLATE" (ELit "
set_per_process_memory_fraction({})
");
  SLet "code" (EFormat (EVar "API_TEMPLATE") (of_exps [(EGet "kwargs" "fraction")]));
  SReturn (EVar "code")]).

(** api_matcher.py:255-257 [DetachMatcher.generate_code] *)
Definition g_DetachMatcher : block := (of_stmts [
  SLet "code" (EFormat (ELit "{}.detach()") (of_exps [(EGet "kwargs" "input")]));
  SReturn (EVar "code")]).

(** api_matcher.py:5737-5738 [DistributedBackendMatcher.generate_code] *)
Definition g_DistributedBackendMatcher : block := (of_stmts [
  SReturn (EFormat (ELit "{}.lower()") (of_exps [(EGet "kwargs" "name")]))]).

(** api_matcher.py:2513-2516 [ReverseAsyncOpMatcher.generate_code] *)
Definition g_ReverseAsyncOpMatcher : block := (of_stmts [
  SIf (EIn "async_op" "kwargs") (of_stmts [
    SSet "kwargs" "sync_op" (EFormat (ELit "not {}") (of_exps [(EPop "kwargs" "async_op")]))]) Done;
  SReturn (EGenerate g_GenericMatcher "kwargs")]).

(** api_matcher.py:5808-5822 [ReduceScatterTensorMatcher.generate_code] *)
Definition g_ReduceScatterTensorMatcher : block := (of_stmts [
  SUtils;
  SLet "API_TEMPLATE" (ELit "
reduce_scatter_tensor({},{},{},{},{})
");
  SLet "code" (EFormat (EVar "API_TEMPLATE") (of_exps [(EGet "kwargs" "output"); (EGet "kwargs" "input"); (EGetOr "kwargs" "op" ENone); (EGetOr "kwargs" "group" ENone); (EGetOr "kwargs" "async_op" ENone)]));
  SReturn (EVar "code")]).

(** api_matcher.py:5166-5175 [RpcRemoteMatcher.generate_code] *)
Definition g_RpcRemoteMatcher : block := (of_stmts [
  SUtils;
  SSet "kwargs" "fn" (EPop "kwargs" "func");
  SLet "kwargs" (EKwargs "kwargs");
  SLet "API_TEMPLATE" (ELit "
rpc_remote(paddle.distributed.rpc.rpc_async({}))
");
  SReturn (EFormat (EVar "API_TEMPLATE") (of_exps [(EVar "kwargs")]))]).

(** api_matcher.py:914-921 [TransformsPositiveDefiniteTransformMatcher.generate_code] *)
Definition g_TransformsPositiveDefiniteTransformMatcher : block := (of_stmts [
  SUtils;
  SLet "API_TEMPLATE" (ELit "
PositiveDefiniteTransform()
");
  SReturn (EVar "API_TEMPLATE")]).

(** api_matcher.py:5136-5149 [FromBufferMatcher.generate_code] *)
Definition g_FromBufferMatcher : block := (of_stmts [
  SLet "API_TEMPLATE" (ELit "
import numpy as np
buffer = {0}
dtype = {1}
if isinstance(dtype, paddle.base.core.DataType):
    dtype = dtype.name.lower()
paddle.to_tensor(np.frombuffer(np.array(buffer), dtype=dtype))
");
  SLet "code" (EFormat (ELit "
import numpy as np
buffer = {}
dtype = {}
if isinstance(dtype, paddle.base.core.DataType):
    dtype = dtype.name.lower()
paddle.to_tensor(np.frombuffer(np.array(buffer), dtype=dtype))
") (of_exps [(EGet "kwargs" "buffer"); (EGet "kwargs" "dtype")]));
  SReturn (EVar "code")]).

(** api_matcher.py:5191-5199 [GetNumInteropThreadsMatcher.generate_code] *)
Definition g_GetNumInteropThreadsMatcher : block := (of_stmts [
  SLet "API_TEMPLATE" (ELit "
import os
int(os.environ['OMP_NUM_THREADS'])
");
  SLet "code" (EFormat (EVar "API_TEMPLATE") (of_exps []));
  SReturn (EVar "code")]).

(** api_matcher.py:5179-5187 [GetNumThreadsMatcher.generate_code] *)
Definition g_GetNumThreadsMatcher : block := (of_stmts [
  SLet "API_TEMPLATE" (ELit "
import os
os.getenv(""CPU_NUM"",1)
");
  SLet "code" (EFormat (EVar "API_TEMPLATE") (of_exps []));
  SReturn (EVar "code")]).

(** api_matcher.py:2437-2502 [IndexCopyMatcher.generate_code] *)
Definition g_IndexCopyMatcher : block := (of_stmts [
  SLet "out_v" ENone;
  SIf (EIn "out" "kwargs") (of_stmts [
    SLet "out_v" (EPop "kwargs" "out")]) Done;
  SIf (ETest ZeroInside (EGet "kwargs" "dim")) (of_stmts [
    SIf (EVar "out_v") (of_stmts [
      SLet "code" (EFormat (ELit "paddle.assign(paddle.scatter({}, {}, {}), {})") (of_exps [(EGet "kwargs" "input"); (EGet "kwargs" "index"); (EGet "kwargs" "source"); (EVar "out_v")]))]) (of_stmts [
      SLet "code" (EFormat (ELit "paddle.scatter({}, {}, {})") (of_exps [(EGet "kwargs" "input"); (EGet "kwargs" "index"); (EGet "kwargs" "source")]))]);
    SReturn (EVar "code")]) Done;
  SIf (EVar "out_v") (of_stmts [
    SLet "API_TEMPLATE" (ELit "
times, temp_shape, temp_index = paddle.prod(paddle.to_tensor({}.shape[:{}])), {}.shape, {}
{}, new_t = {}.reshape([-1] + temp_shape[{}+1:]), {}.reshape([-1] + temp_shape[{}+1:])
for i in range(1, times):
    temp_index= paddle.concat([temp_index, index+len(index)*i])
paddle.assign(paddle.scatter({}, temp_index, new_t).reshape(temp_shape), {})
");
    SLet "code" (EFormat (EVar "API_TEMPLATE") (of_exps [(EGet "kwargs" "input"); (EGet "kwargs" "dim"); (EGet "kwargs" "input"); (EGet "kwargs" "index"); (EGet "kwargs" "input"); (EGet "kwargs" "input"); (EGet "kwargs" "dim"); (EGet "kwargs" "source"); (EGet "kwargs" "dim"); (EGet "kwargs" "input"); (EVar "out_v")]))]) (of_stmts [
    SLet "API_TEMPLATE" (ELit "
times, temp_shape, temp_index = paddle.prod(paddle.to_tensor({}.shape[:{}])), {}.shape, {}
{}, new_t = {}.reshape([-1] + temp_shape[{}+1:]), {}.reshape([-1] + temp_shape[{}+1:])
for i in range(1, times):
    temp_index= paddle.concat([temp_index, index+len(index)*i])
paddle.scatter({}, temp_index, new_t).reshape(temp_shape)
");
    SLet "code" (EFormat (EVar "API_TEMPLATE") (of_exps [(EGet "kwargs" "input"); (EGet "kwargs" "dim"); (EGet "kwargs" "input"); (EGet "kwargs" "index"); (EGet "kwargs" "input"); (EGet "kwargs" "input"); (EGet "kwargs" "dim"); (EGet "kwargs" "source"); (EGet "kwargs" "dim"); (EGet "kwargs" "input")]))]);
  SReturn (EVar "code")]).

(** api_matcher.py:925-926 [Is_InferenceMatcher.generate_code] *)
Definition g_Is_InferenceMatcher : block := (of_stmts [
  SReturn (EFormat (ELit "{}.stop_gradient") (of_exps [(EGet "kwargs" "input")]))]).

(** api_matcher.py:2395-2403 [IsNonzeroMatcher.generate_code] *)
Definition g_IsNonzeroMatcher : block := (of_stmts [
  SLet "API_TEMPLATE" (ELit "
{}.astype(""bool"").item()
");
  SLet "code" (EFormat (EVar "API_TEMPLATE") (of_exps [(EGet "kwargs" "input")]));
  SReturn (EVar "code")]).

(** api_matcher.py:5742-5744 [JitSaveMatcher.generate_code] *)
Definition g_JitSaveMatcher : block := (of_stmts [
  SSet "kwargs" "path" (EFormat (ELit "{}.rsplit('.', 1)[0]") (of_exps [(EPop "kwargs" "f")]));
  SReturn (EGenerate g_GenericMatcher "kwargs")]).

(** api_matcher.py:3515-3540 [LinalgCholeskyExMatcher.generate_code] *)
Definition g_LinalgCholeskyExMatcher : block := (of_stmts [
  SIf (ENot (EIn "upper" "kwargs")) (of_stmts [
    SSet "kwargs" "upper" (EBool false)]) Done;
  SIf (EAnd (EIn "out" "kwargs") (ENot (ETest (Is "None") (EGet "kwargs" "out")))) (of_stmts [
    SLet "out_v" (EGet "kwargs" "out");
    SLet "API_TEMPLATE" (ELit "
out1 = paddle.linalg.cholesky(x={}, upper={})
out2 = paddle.zeros({}.shape[:-2], dtype=""int32"")
paddle.assign(out1, output={}[0]), paddle.assign(out2, output={}[1])
");
    SLet "code" (EFormat (EVar "API_TEMPLATE") (of_exps [(EGet "kwargs" "input"); (EGet "kwargs" "upper"); (EGet "kwargs" "input"); (EVar "out_v"); (EVar "out_v")]));
    SReturn (EVar "code")]) (of_stmts [
    SLet "API_TEMPLATE" (ELit "
(paddle.linalg.cholesky(x={}, upper={}), paddle.zeros({}.shape[:-2], dtype=""int32""))
");
    SLet "code" (EFormat (EVar "API_TEMPLATE") (of_exps [(EGet "kwargs" "input"); (EGet "kwargs" "upper"); (EGet "kwargs" "input")]));
    SReturn (EVar "code")])]).

(** api_matcher.py:3623-3639 [DoubleAssignMatcher.generate_code] *)
Definition g_DoubleAssignMatcher : block := (of_stmts [
  SChange "kwargs" "kwargs" [];
  SDefaults "kwargs";
  SIf (EIn "out" "kwargs") (of_stmts [
    SLet "out_v" (EPop "kwargs" "out");
    SLet "API_TEMPLATE" (ELit "
out1, out2 = {}({})
paddle.assign(out1, {}[0]), paddle.assign(out2, {}[1])
");
    SLet "code" (EFormat (EVar "API_TEMPLATE") (of_exps [EApi; (EKwargs "kwargs"); (EVar "out_v"); (EVar "out_v")]))]) (of_stmts [
    SLet "code" (EFormat (ELit "{}({})") (of_exps [EApi; (EKwargs "kwargs")]))]);
  SReturn (EVar "code")]).

(** api_matcher.py:3492-3511 [LinalgInvExMatcher.generate_code] *)
Definition g_LinalgInvExMatcher : block := (of_stmts [
  SIf (EAnd (EIn "out" "kwargs") (ENot (ETest (Is "None") (EGet "kwargs" "out")))) (of_stmts [
    SLet "out_v" (EGet "kwargs" "out");
    SLet "API_TEMPLATE" (ELit "
out1 = paddle.linalg.inv({})
out2 = paddle.zeros({}.shape[:-2], dtype=""int32"")
paddle.assign(out1, output={}[0]), paddle.assign(out2, output={}[1])
");
    SLet "code" (EFormat (EVar "API_TEMPLATE") (of_exps [(EGet "kwargs" "A"); (EGet "kwargs" "A"); (EVar "out_v"); (EVar "out_v")]));
    SReturn (EVar "code")]) (of_stmts [
    SLet "API_TEMPLATE" (ELit "
(paddle.linalg.inv({}), paddle.zeros({}.shape[:-2], dtype=""int32""))
");
    SLet "code" (EFormat (EVar "API_TEMPLATE") (of_exps [(EGet "kwargs" "A"); (EGet "kwargs" "A")]));
    SReturn (EVar "code")])]).

(** api_matcher.py:4284-4314 [LinalgLuMatcher.generate_code] *)
Definition g_LinalgLuMatcher : block := (of_stmts [
  SLet "out_v" (EIf (EIn "out" "kwargs") (EPop "kwargs" "out") ENone);
  SNew "new_kwargs";
  SSet "new_kwargs" "x" (EPop "kwargs" "A");
  SUpdate "new_kwargs" "kwargs";
  SIf (EVar "out_v") (of_stmts [
    SLet "API_TEMPLATE" (ELit "
tmp_lu, tmp_p = paddle.linalg.lu({})
P, L, U = paddle.linalg.lu_unpack(tmp_lu, tmp_p)
paddle.assign(P, {}[0]), paddle.assign(L, {}[1]), paddle.assign(U, {}[2])
");
    SLet "code" (EFormat (EVar "API_TEMPLATE") (of_exps [(EKwargs "new_kwargs"); (EVar "out_v"); (EVar "out_v"); (EVar "out_v")]))]) (of_stmts [
    SLet "API_TEMPLATE" (ELit "
tmp_lu, tmp_p = paddle.linalg.lu({})
paddle.linalg.lu_unpack(tmp_lu, tmp_p)
");
    SLet "code" (EFormat (EVar "API_TEMPLATE") (of_exps [(EKwargs "new_kwargs")]))]);
  SReturn (EVar "code")]).

(** api_matcher.py:3643-3660 [TripleAssignMatcher.generate_code] *)
Definition g_TripleAssignMatcher : block := (of_stmts [
  SChange "kwargs" "kwargs" [];
  SDefaults "kwargs";
  SIf (EIn "out" "kwargs") (of_stmts [
    SLet "out_v" (EPop "kwargs" "out");
    SLet "API_TEMPLATE" (ELit "
out1, out2, out3 = {}({})
paddle.assign(out1, {}[0]), paddle.assign(out2, {}[1]), paddle.assign(out3, {}[2])
");
    SLet "code" (EFormat (EVar "API_TEMPLATE") (of_exps [EApi; (EKwargs "kwargs"); (EVar "out_v"); (EVar "out_v"); (EVar "out_v")]))]) (of_stmts [
    SLet "code" (EFormat (ELit "{}({})") (of_exps [EApi; (EKwargs "kwargs")]))]);
  SReturn (EVar "code")]).

(** api_matcher.py:5923-5938 [LinalgLuSolveMatcher.generate_code] *)
Definition g_LinalgLuSolveMatcher : block := (of_stmts [
  SUtils;
  SLet "API_TEMPLATE" (ELit "
linalg_lu_solve({},{},{},{},{},{})
");
  SLet "code" (EFormat (EVar "API_TEMPLATE") (of_exps [(EGet "kwargs" "LU"); (EGet "kwargs" "pivots"); (EGet "kwargs" "B"); (EGetOr "kwargs" "left" (EBool true)); (EGetOr "kwargs" "adjoint" (EBool false)); (EGetOr "kwargs" "out" ENone)]));
  SReturn (EVar "code")]).

(** api_matcher.py:4318-4323 [LinalgSolveTriangularMatcher.generate_code] *)
Definition g_LinalgSolveTriangularMatcher : block := (of_stmts [
  SNew "new_kwargs";
  SIf (EIn "left" "kwargs") (of_stmts [
    SSet "new_kwargs" "transpose" (EFormat (ELit "not {}") (of_exps [(EPop "kwargs" "left")]))]) Done;
  SUpdate "new_kwargs" "kwargs";
  SReturn (EGenerate g_GenericMatcher "new_kwargs")]).

(** api_matcher.py:850-852 [LoadMatcher.generate_code] *)
Definition g_LoadMatcher : block := (of_stmts [
  SSet "kwargs" "path" (EFormat (ELit "str({})") (of_exps [(EPop "kwargs" "f")]));
  SReturn (EGenerate g_GenericMatcher "kwargs")]).

(** api_matcher.py:4244-4280 [LuMatcher.generate_code] *)
Definition g_LuMatcher : block := (of_stmts [
  SLet "out_v" (EIf (EIn "out" "kwargs") (EPop "kwargs" "out") ENone);
  SIf (EVar "out_v") (of_stmts [
    SLet "get_infos_v" (EAnd (EIn "get_infos" "kwargs") (ENot (ETest (Is "(False)") (EGet "kwargs" "get_infos"))));
    SNew "new_kwargs";
    SSet "new_kwargs" "x" (EPop "kwargs" "A");
    SUpdate "new_kwargs" "kwargs";
    SIf (EVar "get_infos_v") (of_stmts [
      SLet "API_TEMPLATE" (ELit "
tmp_lu, tmp_p, tmp_info = {}({})
paddle.assign(tmp_lu, {}[0]), paddle.assign(tmp_p, {}[1]), paddle.assign(tmp_info, {}[2])
");
      SLet "code" (EFormat (EVar "API_TEMPLATE") (of_exps [EApi; (EKwargs "new_kwargs"); (EVar "out_v"); (EVar "out_v"); (EVar "out_v")]))]) (of_stmts [
      SLet "API_TEMPLATE" (ELit "
tmp_lu, tmp_p = {}({})
paddle.assign(tmp_lu, {}[0]), paddle.assign(tmp_p, {}[1])
");
      SLet "code" (EFormat (EVar "API_TEMPLATE") (of_exps [EApi; (EKwargs "new_kwargs"); (EVar "out_v"); (EVar "out_v")]))]);
    SReturn (EVar "code")]) Done;
  SReturn (EGenerate g_GenericMatcher "kwargs")]).

(** api_matcher.py:4999-5032 [Lu_unpackMatcher.generate_code] *)
Definition g_Lu_unpackMatcher : block := (of_stmts [
  SChange "kwargs" "kwargs" [];
  SDefaults "kwargs";
  SLet "out_v" (EPopOr "kwargs" "out" (ELit "None"));
  SIf (ENot (ETest (Is "None") (EVar "out_v"))) (of_stmts [
    SLet "out1" (ELit "out1");
    SLet "out2" (ELit "out2");
    SLet "out3" (ELit "out3");
    SIf (EAnd (EIn "unpack_ludata" "kwargs") (ETest (Is "(False)") (EGet "kwargs" "unpack_ludata"))) (of_stmts [
      SLet "out2" (ELit "paddle.paddle.to_tensor([])");
      SLet "out3" (ELit "paddle.paddle.to_tensor([])")]) Done;
    SIf (EAnd (EIn "unpack_pivots" "kwargs") (ETest (Is "(False)") (EGet "kwargs" "unpack_pivots"))) (of_stmts [
      SLet "out1" (ELit "paddle.paddle.to_tensor([])")]) Done;
    SLet "API_TEMPLATE" (ELit "
out1, out2, out3 = {}({})
paddle.assign({}, {}[0]), paddle.assign({}, {}[1]), paddle.assign({}, {}[2])
");
    SLet "code" (EFormat (EVar "API_TEMPLATE") (of_exps [EApi; (EKwargs "kwargs"); (EVar "out1"); (EVar "out_v"); (EVar "out2"); (EVar "out_v"); (EVar "out3"); (EVar "out_v")]))]) (of_stmts [
    SLet "code" (EFormat (ELit "{}({})") (of_exps [EApi; (EKwargs "kwargs")]))]);
  SReturn (EVar "code")]).

(** api_matcher.py:1139-1146 [MPCpuCountMatcher.generate_code] *)
Definition g_MPCpuCountMatcher : block := (of_stmts [
  SLet "API_TEMPLATE" (ELit "
import os
os.cpu_count()
");
  SReturn (EVar "API_TEMPLATE")]).

(** api_matcher.py:5511-5514 [GRUCellMatcher.generate_code] *)
Definition g_GRUCellMatcher : block := (of_stmts [
  SUtils;
  SApi (ELit "GRUCell");
  SReturn (EGenerate g_GenericMatcher "kwargs")]).

(** api_matcher.py:2506-2509 [ReverseMomentumMatcher.generate_code] *)
Definition g_ReverseMomentumMatcher : block := (of_stmts [
  SIf (EIn "momentum" "kwargs") (of_stmts [
    SSet "kwargs" "momentum" (EFormat (ELit "1 - {}") (of_exps [(EPop "kwargs" "momentum")]))]) Done;
  SReturn (EGenerate g_GenericMatcher "kwargs")]).

(** api_matcher.py:3695-3707 [RNNMatcher.generate_code] *)
Definition g_RNNMatcher : block := (of_stmts [
  SIf (EIn "batch_first" "kwargs") (of_stmts [
    SLet "batch_first" (EPop "kwargs" "batch_first")]) (of_stmts [
    SLet "batch_first" (EBool false)]);
  SSet "kwargs" "time_major" (EFormat (ELit "not {}") (of_exps [(EVar "batch_first")]));
  SIf (EIn "bidirectional" "kwargs") (of_stmts [
    SIf (ETest (Is "(True)") (EGet "kwargs" "bidirectional")) (of_stmts [
      SSet "kwargs" "direction" (ELit "'bidirect'")]) Done;
    SDo (EPop "kwargs" "bidirectional")]) Done;
  SReturn (EGenerate g_GenericMatcher "kwargs")]).

(** api_matcher.py:5528-5531 [LSTMCellMatcher.generate_code] *)
Definition g_LSTMCellMatcher : block := (of_stmts [
  SUtils;
  SApi (ELit "LSTMCell");
  SReturn (EGenerate g_GenericMatcher "kwargs")]).

(** api_matcher.py:4051-4054 [LogSoftmaxMatcher.generate_code] *)
Definition g_LogSoftmaxMatcher : block := (of_stmts [
  SIf (EOr (ENot (EIn "dim" "kwargs")) (ETest (Is "None") (EGet "kwargs" "dim"))) (of_stmts [
    SUtils]) Done;
  SReturn (EGenerate g_GenericMatcher "kwargs")]).

(** api_matcher.py:3711-3725 [RNNBaseMatcher.generate_code] *)
Definition g_RNNBaseMatcher : block := (of_stmts [
  SIf (EIn "batch_first" "kwargs") (of_stmts [
    SLet "batch_first" (EPop "kwargs" "batch_first")]) (of_stmts [
    SLet "batch_first" (EBool false)]);
  SSet "kwargs" "time_major" (EFormat (ELit "not {}") (of_exps [(EVar "batch_first")]));
  SLet "direction" (ELit "'forward'");
  SIf (EIn "bidirectional" "kwargs") (of_stmts [
    SIf (ETest (Has "True") (EGet "kwargs" "bidirectional")) (of_stmts [
      SLet "direction" (ELit "'bidirect'")]) Done;
    SDo (EPop "kwargs" "bidirectional")]) Done;
  SSet "kwargs" "direction" (EVar "direction");
  SReturn (EGenerate g_GenericMatcher "kwargs")]).

(** api_matcher.py:5545-5548 [RNNCellMatcher.generate_code] *)
Definition g_RNNCellMatcher : block := (of_stmts [
  SUtils;
  SApi (ELit "SimpleRNNCell");
  SReturn (EGenerate g_GenericMatcher "kwargs")]).

(** api_matcher.py:4079-4082 [SoftminMatcher.generate_code] *)
Definition g_SoftminMatcher : block := (of_stmts [
  SApi (ELit "Softmin");
  SUtils;
  SReturn (EGenerate g_GenericMatcher "kwargs")]).

(** api_matcher.py:3995-4002 [Get_EnumMatcher.generate_code] *)
Definition g_Get_EnumMatcher : block := (of_stmts [
  SUtils;
  SLet "API_TEMPLATE" (ELit "
get_enum({})
");
  SReturn (EFormat (EVar "API_TEMPLATE") (of_exps [(EGet "kwargs" "reduction")]))]).

(** api_matcher.py:2989-3011 [AvgPoolMatcher.generate_code] *)
Definition g_AvgPoolMatcher : block := (of_stmts [
  SNew "new_kwargs";
  SRename "new_kwargs" "kwargs" [("input", "x")];
  SIf (EIn "count_include_pad" "new_kwargs") (of_stmts [
    SSet "new_kwargs" "exclusive" (ECat (ELit "not ") (EPop "new_kwargs" "count_include_pad"))]) (of_stmts [
    SSet "new_kwargs" "exclusive" (ELit "False")]);
  SLet "API_TEMPLATE" (ELit "
{}({})
");
  SLet "code" (EFormat (EVar "API_TEMPLATE") (of_exps [EApi; (EKwargs "new_kwargs")]));
  SReturn (EVar "code")]).

(** api_matcher.py:4202-4209 [FunctionalBilinearMatcher.generate_code] *)
Definition g_FunctionalBilinearMatcher : block := (of_stmts [
  SIf (EIn "bias" "kwargs") (of_stmts [
    SSet "kwargs" "bias" (EFormat (ELit "{}.unsqueeze(0)") (of_exps [(EGet "kwargs" "bias")]))]) Done;
  SSet "kwargs" "x1" (EPop "kwargs" "input1");
  SSet "kwargs" "x2" (EPop "kwargs" "input2");
  SReturn (EFormat (ELit "{}({})") (of_exps [EApi; (EKwargs "kwargs")]))]).

(** api_matcher.py:5580-5599 [Fractional_Max_pool2dMatcher.generate_code] *)
Definition g_Fractional_Max_pool2dMatcher : block := (of_stmts [
  SNew "new_kwargs";
  SIf (EIn "output_ratio" "kwargs") (of_stmts [
    SSet "kwargs" "output_size" (EFormat (ELit "[int(paddle.shape({})[-2] * {}[0]),int(paddle.shape({})[-1] * {}[1])]") (of_exps [(EGet "kwargs" "input"); (EGet "kwargs" "output_ratio"); (EGet "kwargs" "input"); (EGet "kwargs" "output_ratio")]));
    SDo (EPop "kwargs" "output_ratio")]) Done;
  SRename "new_kwargs" "kwargs" [("input", "x"); ("return_indices", "return_mask")];
  SReturn (EGenerate g_GenericMatcher "new_kwargs")]).

(** api_matcher.py:5603-5624 [Fractional_Max_pool3dMatcher.generate_code] *)
Definition g_Fractional_Max_pool3dMatcher : block := (of_stmts [
  SNew "new_kwargs";
  SIf (EIn "output_ratio" "kwargs") (of_stmts [
    SSet "kwargs" "output_size" (EFormat (ELit "[int(paddle.shape({})[-3] * {}[0]), int(paddle.shape({})[-2] * {}[1]),int(paddle.shape({})[-1] * {}[2])]") (of_exps [(EGet "kwargs" "input"); (EGet "kwargs" "output_ratio"); (EGet "kwargs" "input"); (EGet "kwargs" "output_ratio"); (EGet "kwargs" "input"); (EGet "kwargs" "output_ratio")]));
    SDo (EPop "kwargs" "output_ratio")]) Done;
  SRename "new_kwargs" "kwargs" [("input", "x"); ("return_indices", "return_mask")];
  SReturn (EGenerate g_GenericMatcher "new_kwargs")]).

(** api_matcher.py:3027-3034 [FSoftMinMatcher.generate_code] *)
Definition g_FSoftMinMatcher : block := (of_stmts [
  SSet "kwargs" "input" (EFormat (ELit "-{}") (of_exps [(EGet "kwargs" "input")]));
  SIf (EOr (ENot (EIn "dim" "kwargs")) (ETest (Is "None") (EGet "kwargs" "dim"))) (of_stmts [
    SUtils;
    SSet "kwargs" "dim" (EFormat (ELit "_get_softmin_dim({}.ndim)") (of_exps [(EGet "kwargs" "input")]));
    SReturn (EGenerate g_GenericMatcher "kwargs")]) (of_stmts [
    SReturn (EGenerate g_GenericMatcher "kwargs")])]).

(** api_matcher.py:3952-3970 [NTupleMatcher.generate_code] *)
Definition g_NTupleMatcher : block := (of_stmts [
  SUtils;
  SIf (ENot (EIn "x" "kwargs")) (of_stmts [
    SLet "API_TEMPLATE" (ELit "
create_tuple_converter({})
");
    SLet "code" (EFormat (EVar "API_TEMPLATE") (of_exps [(EKwargs "kwargs")]))]) (of_stmts [
    SDefaults "kwargs";
    SLet "API_TEMPLATE" (ELit "
create_tuple_converter({})({})
");
    SLet "code" (EFormat (EVar "API_TEMPLATE") (of_exps [(EGet "kwargs" "n"); (EGet "kwargs" "x")]))]);
  SReturn (EVar "code")]).

(** api_matcher.py:930-931 [NumelMatcher.generate_code] *)
Definition g_NumelMatcher : block := (of_stmts [
  SReturn (EFormat (ELit "{}.size") (of_exps [(EGet "kwargs" "input")]))]).

(** api_matcher.py:5644-5653 [OnnxExportMatcher.generate_code] *)
Definition g_OnnxExportMatcher : block := (of_stmts [
  SUtils;
  SLet "API_TEMPLATE" (ELit "
onnx_export({},{})
");
  SLet "code" (EFormat (EVar "API_TEMPLATE") (of_exps [(EGet "kwargs" "model"); (EGet "kwargs" "f")]));
  SReturn (EVar "code")]).

(** api_matcher.py:4113-4118 [OptimAdamMatcher.generate_code] *)
Definition g_OptimAdamMatcher : block := (of_stmts [
  SIf (EIn "betas" "kwargs") (of_stmts [
    SSet "kwargs" "beta1" (EFormat (ELit "{}[0]") (of_exps [(EGet "kwargs" "betas")]));
    SSet "kwargs" "beta2" (EFormat (ELit "{}[1]") (of_exps [(EGet "kwargs" "betas")]));
    SDo (EPop "kwargs" "betas")]) Done;
  SReturn (EGenerate g_GenericMatcher "kwargs")]).

(** api_matcher.py:4882-4887 [ZeroGradMatcher.generate_code] *)
Definition g_ZeroGradMatcher : block := (of_stmts [
  SIf (EIn "set_to_none" "kwargs") (of_stmts [
    SLet "set_to_none" (EPop "kwargs" "set_to_none");
    SSet "kwargs" "set_to_zero" (EFormat (ELit "(not {})") (of_exps [(EVar "set_to_none")]))]) Done;
  SReturn (EGenerate g_GenericMatcher "kwargs")]).

(** api_matcher.py:4122-4138 [LRSchedulerMatcher.generate_code] *)
Definition g_LRSchedulerMatcher : block := (of_stmts [
  SChange "kwargs" "kwargs" [];
  SDefaults "kwargs";
  SLet "optimizer" (EPop "kwargs" "optimizer");
  SLet "API_TEMPLATE" (ELit "
tmp_lr = {}({})
{}.set_lr_scheduler(tmp_lr)
tmp_lr
");
  SLet "code" (EFormat (EVar "API_TEMPLATE") (of_exps [EApi; (EKwargs "kwargs"); (EVar "optimizer")]));
  SReturn (EVar "code")]).

(** api_matcher.py:4149-4164 [ConstantLRMatcher.generate_code] *)
Definition g_ConstantLRMatcher : block := (of_stmts [
  SLet "optim" (EGet "kwargs" "optimizer");
  SLet "total_iters" (ELit "5");
  SIf (EIn "factor" "kwargs") (of_stmts [
    SLet "factor" (EPop "kwargs" "factor");
    SSet "kwargs" "values" (EFormat (ELit "[{}*{}.get_lr(), {}.get_lr()]") (of_exps [(EVar "factor"); (EVar "optim"); (EVar "optim")]))]) (of_stmts [
    SSet "kwargs" "values" (EFormat (ELit "[{}.get_lr()/3, {}.get_lr()]") (of_exps [(EVar "optim"); (EVar "optim")]))]);
  SIf (EIn "total_iters" "kwargs") (of_stmts [
    SLet "total_iters" (EPop "kwargs" "total_iters")]) Done;
  SSet "kwargs" "boundaries" (EFormat (ELit "[{}]") (of_exps [(EVar "total_iters")]));
  SReturn (EGenerate g_LRSchedulerMatcher "kwargs")]).

(** api_matcher.py:4142-4145 [Optim2LrSchedulerMatcher.generate_code] *)
Definition g_Optim2LrSchedulerMatcher : block := (of_stmts [
  SLet "optimizer" (EGet "kwargs" "optimizer");
  SSet "kwargs" "learning_rate" (EFormat (ELit "{}.get_lr()") (of_exps [(EVar "optimizer")]));
  SReturn (EGenerate g_LRSchedulerMatcher "kwargs")]).

(** api_matcher.py:4168-4184 [OneCycleLRMatcher.generate_code] *)
Definition g_OneCycleLRMatcher : block := (of_stmts [
  SIf (EAnd (EIn "total_steps" "kwargs") (ENot (ETest (Has "None") (EGet "kwargs" "total_steps")))) Done (of_stmts [
    SLet "steps_per_epoch" (EPop "kwargs" "steps_per_epoch");
    SLet "epochs" (EPop "kwargs" "epochs");
    SSet "kwargs" "total_steps" (EFormat (ELit "({})*({})") (of_exps [(EVar "steps_per_epoch"); (EVar "epochs")]))]);
  SIf (EIn "final_div_factor" "kwargs") (of_stmts [
    SLet "final_div_factor" (EPop "kwargs" "final_div_factor");
    SLet "max_lr" (EGet "kwargs" "max_lr");
    SLet "div_factor" (EGet "kwargs" "div_factor");
    SSet "kwargs" "end_learning_rate" (EFormat (ELit "({}) * 1. /(({}) * {})") (of_exps [(EVar "max_lr"); (EVar "div_factor"); (EVar "final_div_factor")]))]) Done;
  SReturn (EGenerate g_LRSchedulerMatcher "kwargs")]).

(** api_matcher.py:5213-5222 [SetNumInteropThreadsMatcher.generate_code] *)
Definition g_SetNumInteropThreadsMatcher : block := (of_stmts [
  SUtils;
  SLet "API_TEMPLATE" (ELit "
_set_num_interop_threads({})
");
  SLet "code" (EFormat (EVar "API_TEMPLATE") (of_exps [(EGet "kwargs" "int")]));
  SReturn (EVar "code")]).

(** api_matcher.py:5236-5245 [SetNumThreadsMatcher.generate_code] *)
Definition g_SetNumThreadsMatcher : block := (of_stmts [
  SUtils;
  SLet "API_TEMPLATE" (ELit "
_set_num_threads({})
");
  SLet "code" (EFormat (EVar "API_TEMPLATE") (of_exps [(EGet "kwargs" "int")]));
  SReturn (EVar "code")]).

(** api_matcher.py:2109-2134 [SetPrintOptionsMatcher.generate_code] *)
Definition g_SetPrintOptionsMatcher : block := (of_stmts [
  SIf (EIn "profile" "kwargs") (of_stmts [
    SNew "pro_kwargs";
    SIf (ETest (Is """""""default""""""") (EGet "kwargs" "profile")) (of_stmts [
      SSet "pro_kwargs" "precision" (ELit "4");
      SSet "pro_kwargs" "threshold" (ELit "1000");
      SSet "pro_kwargs" "edgeitems" (ELit "3");
      SSet "pro_kwargs" "linewidth" (ELit "80")]) (of_stmts [
      SIf (ETest (Is """""""short""""""") (EGet "kwargs" "profile")) (of_stmts [
        SSet "pro_kwargs" "precision" (ELit "2");
        SSet "pro_kwargs" "threshold" (ELit "1000");
        SSet "pro_kwargs" "edgeitems" (ELit "2");
        SSet "pro_kwargs" "linewidth" (ELit "80")]) (of_stmts [
        SIf (ETest (Is """""""full""""""") (EGet "kwargs" "profile")) (of_stmts [
          SSet "pro_kwargs" "precision" (ELit "4");
          SSet "pro_kwargs" "threshold" (ELit "1000000");
          SSet "pro_kwargs" "edgeitems" (ELit "3");
          SSet "pro_kwargs" "linewidth" (ELit "80")]) Done])]);
    SMissing "kwargs" "pro_kwargs";
    SDo (EPop "kwargs" "profile")]) Done;
  SReturn (EGenerate g_GenericMatcher "kwargs")]).

(** api_matcher.py:634-660 [SignalWindowsWatcher.generate_code] *)
Definition g_SignalWindowsWatcher : block := (of_stmts [
  SNew "new_kwargs";
  SIf (EIn "sym" "kwargs") (of_stmts [
    SSet "kwargs" "fftbins" (ECat (ELit "not ") (EPop "kwargs" "sym"))]) Done;
  SIf (ETest (Has "exponential") ETorch) (of_stmts [
    SIf (EIn "tau" "kwargs") (of_stmts [
      SSet "new_kwargs" "window" (EFormat (ELit "('exponential', None, {})") (of_exps [(EPop "kwargs" "tau")]))]) (of_stmts [
      SSet "new_kwargs" "window" (ELit "('exponential', None, 1.0)")])]) Done;
  SIf (ETest (Has "gaussian") ETorch) (of_stmts [
    SIf (EIn "std" "kwargs") (of_stmts [
      SSet "new_kwargs" "window" (EFormat (ELit "('gaussian', {})") (of_exps [(EPop "kwargs" "std")]))]) (of_stmts [
      SSet "new_kwargs" "window" (ELit "('gaussian', 1.0)")])]) Done;
  SIf (ETest (Has "general_hamming") ETorch) (of_stmts [
    SIf (EIn "alpha" "kwargs") (of_stmts [
      SSet "new_kwargs" "window" (EFormat (ELit "('general_hamming', {})") (of_exps [(EPop "kwargs" "alpha")]))]) (of_stmts [
      SSet "new_kwargs" "window" (ELit "('general_hamming', 0.54)")])]) Done;
  SIf (ETest (Has "general_cosine") ETorch) (of_stmts [
    SSet "new_kwargs" "window" (EFormat (ELit "('general_cosine', {})") (of_exps [(EPop "kwargs" "a")]))]) Done;
  SUpdate "new_kwargs" "kwargs";
  SReturn (EGenerate g_GenericMatcher "new_kwargs")]).

(** api_matcher.py:1671-1681 [SparseSoftmaxMatcher.generate_code] *)
Definition g_SparseSoftmaxMatcher : block := (of_stmts [
  SLet "code" (ELit "");
  SIf (EIn "dtype" "kwargs") (of_stmts [
    SLet "dtype_v" (EPop "kwargs" "dtype");
    SLet "tmp_val" (EUnique "tmp_val");
    SLet "code" (ECat (EVar "code") (EFormat (ELit "{}=paddle.sparse.cast({}, value_dtype={})
") (of_exps [(EVar "tmp_val"); (EGet "kwargs" "input"); (EVar "dtype_v")])));
    SSet "kwargs" "input" (EVar "tmp_val")]) Done;
  SLet "code" (ECat (EVar "code") (EGenerate g_GenericMatcher "kwargs"));
  SReturn (EVar "code")]).

(** api_matcher.py:4188-4192 [RequireDimMatcher.generate_code] *)
Definition g_RequireDimMatcher : block := (of_stmts [
  SIf (EOr (ENot (EIn "dim" "kwargs")) (ETest (Has "None") (EGet "kwargs" "dim"))) (of_stmts [
    SReturn ENone]) Done;
  SReturn (EGenerate g_GenericMatcher "kwargs")]).

(** api_matcher.py:2631-2647 [SpecialErfcxMatcher.generate_code] *)
Definition g_SpecialErfcxMatcher : block := (of_stmts [
  SIf (EAnd (EIn "out" "kwargs") (ENot (ETest (Is "None") (EGet "kwargs" "out")))) (of_stmts [
    SLet "API_TEMPLATE" (ELit "
paddle.assign(paddle.exp({} ** 2) * (1.0 - paddle.erf({})), output={})
");
    SLet "code" (EFormat (EVar "API_TEMPLATE") (of_exps [(EGet "kwargs" "input"); (EGet "kwargs" "input"); (EGet "kwargs" "out")]))]) (of_stmts [
    SLet "API_TEMPLATE" (ELit "
paddle.exp({} ** 2) * (1.0 - paddle.erf({}))
");
    SLet "code" (EFormat (EVar "API_TEMPLATE") (of_exps [(EGet "kwargs" "input"); (EGet "kwargs" "input")]))]);
  SReturn (EVar "code")]).

(** api_matcher.py:2695-2711 [Exp2Matcher.generate_code] *)
Definition g_Exp2Matcher : block := (of_stmts [
  SIf (EAnd (EIn "out" "kwargs") (ENot (ETest (Is "None") (EGet "kwargs" "out")))) (of_stmts [
    SLet "API_TEMPLATE" (ELit "
paddle.assign(2. ** {}, output={})
");
    SLet "code" (EFormat (EVar "API_TEMPLATE") (of_exps [(EGet "kwargs" "input"); (EGet "kwargs" "out")]))]) (of_stmts [
    SLet "API_TEMPLATE" (ELit "
2. ** {}
");
    SLet "code" (EFormat (EVar "API_TEMPLATE") (of_exps [(EGet "kwargs" "input")]))]);
  SReturn (EVar "code")]).

(** api_matcher.py:2715-2736 [ExpitMatcher.generate_code] *)
Definition g_ExpitMatcher : block := (of_stmts [
  SLet "exp_v" (EUnique "exp_v");
  SIf (EAnd (EIn "out" "kwargs") (ENot (ETest (Is "None") (EGet "kwargs" "out")))) (of_stmts [
    SLet "API_TEMPLATE" (ELit "
{} = paddle.exp({})
paddle.assign({} / (1 + {}), output={})
");
    SLet "code" (EFormat (EVar "API_TEMPLATE") (of_exps [(EVar "exp_v"); (EGet "kwargs" "input"); (EVar "exp_v"); (EVar "exp_v"); (EGet "kwargs" "out")]))]) (of_stmts [
    SLet "API_TEMPLATE" (ELit "
{} = paddle.exp({})
{} / (1 + {})
");
    SLet "code" (EFormat (EVar "API_TEMPLATE") (of_exps [(EVar "exp_v"); (EGet "kwargs" "input"); (EVar "exp_v"); (EVar "exp_v")]))]);
  SReturn (EVar "code")]).

(** api_matcher.py:3478-3488 [SpecialNdtrMatcher.generate_code] *)
Definition g_SpecialNdtrMatcher : block := (of_stmts [
  SLet "API_TEMPLATE" (ELit "
(paddle.erf({}/paddle.sqrt(paddle.to_tensor(2.0)))-paddle.erf(paddle.to_tensor(-float(""inf""))))/2
");
  SLet "code" (EFormat (EVar "API_TEMPLATE") (of_exps [(EGet "kwargs" "input")]));
  SIf (EAnd (EIn "out" "kwargs") (ENot (ETest (Is "None") (EGet "kwargs" "out")))) (of_stmts [
    SLet "code" (EFormat (ELit "paddle.assign({}, output={})") (of_exps [(EVar "code"); (EGet "kwargs" "out")]))]) Done;
  SReturn (EVar "code")]).

(** api_matcher.py:3464-3474 [SpecialNdtriMatcher.generate_code] *)
Definition g_SpecialNdtriMatcher : block := (of_stmts [
  SLet "API_TEMPLATE" (ELit "
2 ** (1/2) * paddle.erfinv(2*{}-1)
");
  SLet "code" (EFormat (EVar "API_TEMPLATE") (of_exps [(EGet "kwargs" "input")]));
  SIf (EAnd (EIn "out" "kwargs") (ENot (ETest (Is "None") (EGet "kwargs" "out")))) (of_stmts [
    SLet "code" (EFormat (ELit "paddle.assign({}, output={})") (of_exps [(EVar "code"); (EGet "kwargs" "out")]))]) Done;
  SReturn (EVar "code")]).

(** api_matcher.py:3609-3619 [SpecialXLog1pYMatcher.generate_code] *)
Definition g_SpecialXLog1pYMatcher : block := (of_stmts [
  SLet "API_TEMPLATE" (ELit "
{} * paddle.log1p(paddle.to_tensor({}))
");
  SLet "code" (EFormat (EVar "API_TEMPLATE") (of_exps [(EGet "kwargs" "input"); (EGet "kwargs" "other")]));
  SIf (EAnd (EIn "out" "kwargs") (ENot (ETest (Is "None") (EGet "kwargs" "out")))) (of_stmts [
    SLet "code" (EFormat (ELit "paddle.assign({}, output={})") (of_exps [(EVar "code"); (EGet "kwargs" "out")]))]) Done;
  SReturn (EVar "code")]).

(** api_matcher.py:2773-2787 [StdMeanMatcher.generate_code] *)
Definition g_StdMeanMatcher : block := (of_stmts [
  SCopy "std_kwargs" "kwargs";
  SDo (EPopOr "kwargs" "unbiased" ENone);
  SDo (EPopOr "kwargs" "correction" ENone);
  SCopy "mean_kwargs" "kwargs";
  SLet "API_TEMPLATE" (ELit "
(paddle.std({}), paddle.mean({}))
");
  SLet "code" (EFormat (EVar "API_TEMPLATE") (of_exps [(EKwargs "std_kwargs"); (EKwargs "mean_kwargs")]));
  SReturn (EVar "code")]).

(** api_matcher.py:5570-5576 [StftMatcher.generate_code] *)
Definition g_StftMatcher : block := (of_stmts [
  SLet "return_complex" (EPopOr "kwargs" "return_complex" ENone);
  SLet "code" (EGenerate g_GenericMatcher "kwargs");
  SIf (EAnd (EVar "return_complex") (ETest (Is "(False)") (EVar "return_complex"))) (of_stmts [
    SReturn (ECat (EVar "code") (ELit ".as_real()"))]) (of_stmts [
    SReturn (EVar "code")])]).

(** api_matcher.py:5835-5843 [UtilsSetModuleMatcher.generate_code] *)
Definition g_UtilsSetModuleMatcher : block := (of_stmts [
  SUtils;
  SLet "API_TEMPLATE" (ELit "
set_module({},{})
");
  SLet "code" (EFormat (EVar "API_TEMPLATE") (of_exps [(EGet "kwargs" "obj"); (EGet "kwargs" "mod")]));
  SReturn (EVar "code")]).

(** api_matcher.py:2791-2805 [VarMeanMatcher.generate_code] *)
Definition g_VarMeanMatcher : block := (of_stmts [
  SCopy "var_kwargs" "kwargs";
  SDo (EPopOr "kwargs" "unbiased" ENone);
  SDo (EPopOr "kwargs" "correction" ENone);
  SCopy "mean_kwargs" "kwargs";
  SLet "API_TEMPLATE" (ELit "
(paddle.var({}), paddle.mean({}))
");
  SLet "code" (EFormat (EVar "API_TEMPLATE") (of_exps [(EKwargs "var_kwargs"); (EKwargs "mean_kwargs")]));
  SReturn (EVar "code")]).

(** api_matcher.py:5249-5274 [CifarMatcher.generate_code] *)
Definition g_CifarMatcher : block := (of_stmts [
  SIf (EIn "root" "kwargs") (of_stmts [
    SLet "root" (EPop "kwargs" "root");
    SLet "data_file" (EIf (ETest (Has "Cifar100") EApi) (ELit "cifar-100-python.tar.gz") (ELit "cifar-10-python.tar.gz"));
    SSet "kwargs" "data_file" (EFormat (ELit "os.path.join({}, '{}')") (of_exps [(EVar "root"); (EVar "data_file")]))]) Done;
  SIf (EIn "train" "kwargs") (of_stmts [
    SLet "train_value" (EStr StripSpace (EPop "kwargs" "train"));
    SIf (ETest (Is "(True)") (EVar "train_value")) (of_stmts [
      SSet "kwargs" "mode" (ELit "'train'")]) (of_stmts [
      SIf (ETest (Is "(False)") (EVar "train_value")) (of_stmts [
        SSet "kwargs" "mode" (ELit "'test'")]) (of_stmts [
        SSet "kwargs" "mode" (EFormat (ELit "'train' if {} else 'test'") (of_exps [(EVar "train_value")]))])])]) Done;
  SLet "API_TEMPLATE" (ELit "
import os
{}({})
");
  SReturn (EFormat (EVar "API_TEMPLATE") (of_exps [EApi; (EKwargs "kwargs")]))]).

(** api_matcher.py:5278-5328 [MNISTMatcher.generate_code] *)
Definition g_MNISTMatcher : block := (of_stmts [
  SLet "train_value" (EPopOr "kwargs" "train" (ELit "(True)"));
  SIf (ETest (Is "(True)") (EVar "train_value")) (of_stmts [
    SSet "kwargs" "mode" (ELit "'train'")]) (of_stmts [
    SIf (ETest (Is "(False)") (EVar "train_value")) (of_stmts [
      SSet "kwargs" "mode" (ELit "'test'")]) (of_stmts [
      SSet "kwargs" "mode" (EFormat (ELit "'train' if {} else 'test'") (of_exps [(EVar "train_value")]))])]);
  SIf (EIn "root" "kwargs") (of_stmts [
    SLet "root" (EPop "kwargs" "root");
    SLet "dataset_name" (EIf (ETest (Has "FashionMNIST") EApi) (ELit "FashionMNIST") (ELit "MNIST"));
    SNew "file_paths";
    SSet "file_paths" "train_image" (EFormat (ELit "{}/raw/train-images-idx3-ubyte.gz") (of_exps [(EVar "dataset_name")]));
    SSet "file_paths" "train_label" (EFormat (ELit "{}/raw/train-labels-idx1-ubyte.gz") (of_exps [(EVar "dataset_name")]));
    SSet "file_paths" "test_image" (EFormat (ELit "{}/raw/t10k-images-idx3-ubyte.gz") (of_exps [(EVar "dataset_name")]));
    SSet "file_paths" "test_label" (EFormat (ELit "{}/raw/t10k-labels-idx1-ubyte.gz") (of_exps [(EVar "dataset_name")]));
    SIf (ETest (Is "(True)") (EVar "train_value")) (of_stmts [
      SSet "kwargs" "image_path" (EFormat (ELit "os.path.join({}, '{}')") (of_exps [(EVar "root"); (EGet "file_paths" "train_image")]));
      SSet "kwargs" "label_path" (EFormat (ELit "os.path.join({}, '{}')") (of_exps [(EVar "root"); (EGet "file_paths" "train_label")]))]) (of_stmts [
      SIf (ETest (Is "(False)") (EVar "train_value")) (of_stmts [
        SSet "kwargs" "image_path" (EFormat (ELit "os.path.join({}, '{}')") (of_exps [(EVar "root"); (EGet "file_paths" "test_image")]));
        SSet "kwargs" "label_path" (EFormat (ELit "os.path.join({}, '{}')") (of_exps [(EVar "root"); (EGet "file_paths" "test_label")]))]) (of_stmts [
        SSet "kwargs" "image_path" (EFormat (ELit "os.path.join({}, '{}') if {} else os.path.join({}, '{}')") (of_exps [(EVar "root"); (EGet "file_paths" "train_image"); (EVar "train_value"); (EVar "root"); (EGet "file_paths" "test_image")]));
        SSet "kwargs" "label_path" (EFormat (ELit "os.path.join({}, '{}') if {} else os.path.join({}, '{}')") (of_exps [(EVar "root"); (EGet "file_paths" "train_label"); (EVar "train_value"); (EVar "root"); (EGet "file_paths" "test_label")]))])])]) Done;
  SLet "API_TEMPLATE" (ELit "
import os
{}({})
");
  SReturn (EFormat (EVar "API_TEMPLATE") (of_exps [EApi; (EKwargs "kwargs")]))]).

(** api_matcher.py:5332-5360 [Flowers102Matcher.generate_code] *)
Definition g_Flowers102Matcher : block := (of_stmts [
  SLet "split_value" (EPopOr "kwargs" "split" (ELit """""""train"""""""));
  SIf (ETest (Is """""""val""""""") (EVar "split_value")) (of_stmts [
    SSet "kwargs" "mode" (ELit "'valid'")]) (of_stmts [
    SIf (ETest (Is """""""test""""""") (EVar "split_value")) (of_stmts [
      SSet "kwargs" "mode" (ELit "'test'")]) (of_stmts [
      SIf (ETest (Is """""""train""""""") (EVar "split_value")) (of_stmts [
        SSet "kwargs" "mode" (ELit "'train'")]) (of_stmts [
        SSet "kwargs" "mode" (EFormat (ELit "{} if {} != 'val' else 'valid'") (of_exps [(EVar "split_value"); (EVar "split_value")]))])])]);
  SIf (EIn "root" "kwargs") (of_stmts [
    SLet "root" (EPop "kwargs" "root");
    SNew "file_paths";
    SSet "file_paths" "data_file" (ELit "flowers-102/102flowers.tgz");
    SSet "file_paths" "label_file" (ELit "flowers-102/imagelabels.mat");
    SSet "file_paths" "setid_file" (ELit "flowers-102/setid.mat");
    SSet "kwargs" "data_file" (EFormat (ELit "os.path.join({}, '{}')") (of_exps [(EVar "root"); (EGet "file_paths" "data_file")]));
    SSet "kwargs" "label_file" (EFormat (ELit "os.path.join({}, '{}')") (of_exps [(EVar "root"); (EGet "file_paths" "label_file")]));
    SSet "kwargs" "setid_file" (EFormat (ELit "os.path.join({}, '{}')") (of_exps [(EVar "root"); (EGet "file_paths" "setid_file")]))]) Done;
  SLet "API_TEMPLATE" (ELit "
import os
{}({})
");
  SReturn (EFormat (EVar "API_TEMPLATE") (of_exps [EApi; (EKwargs "kwargs")]))]).

(** api_matcher.py:5392-5400 [VOCDetectionMatcher.generate_code] *)
Definition g_VOCDetectionMatcher : block := (of_stmts [
  SUtils;
  SLet "API_TEMPLATE" (ELit "
VOCDetection({})
");
  SLet "code" (EFormat (EVar "API_TEMPLATE") (of_exps [(EKwargs "kwargs")]));
  SReturn (EVar "code")]).

(** api_matcher.py:5404-5414 [DecodeJpegMatcher.generate_code] *)
Definition g_DecodeJpegMatcher : block := (of_stmts [
  SSet "kwargs" "x" (EPop "kwargs" "input");
  SLet "device" (EPopOr "kwargs" "device" (ELit "cpu"));
  SLet "API_TEMPLATE" (ELit "
{}({}).to({})
");
  SReturn (EFormat (EVar "API_TEMPLATE") (of_exps [EApi; (EKwargs "kwargs"); (EVar "device")]))]).

(** api_matcher.py:5492-5497 [VGGMatcher.generate_code] *)
Definition g_VGGMatcher : block := (of_stmts [
  SLet "weights" (EPopOr "kwargs" "weights" ENone);
  SIf (EAnd (EVar "weights") (ENot (ETest (Is "None") (EVar "weights")))) (of_stmts [
    SSet "kwargs" "pretrained" (EBool true)]) Done;
  SSet "kwargs" "batch_norm" (ETest (Has "bn") ETorch);
  SReturn (EGenerate g_GenericMatcher "kwargs")]).

(** api_matcher.py:5443-5453 [BoxesConvertMatcher.generate_code] *)
Definition g_BoxesConvertMatcher : block := (of_stmts [
  SUtils;
  SLet "API_TEMPLATE" (ELit "
{}({})
");
  SLet "code" (EFormat (EVar "API_TEMPLATE") (of_exps [(EStr (AfterLast ".") EApi); (EKwargs "kwargs")]));
  SReturn (EVar "code")]).

(** api_matcher.py:1487-1494 [GetLoggerMatcher.generate_code] *)
Definition g_GetLoggerMatcher : block := (of_stmts [
  SLet "API_TEMPLATE" (ELit "
import logging
logging.getLogger({})
");
  SReturn (EFormat (EVar "API_TEMPLATE") (of_exps [(EKwargs "kwargs")]))]).

(** Matcher classes that use [BaseMatcher.get_paddle_nodes] and
    [BaseMatcher.parse_args_and_kwargs] unchanged, with their [generate_code] and
    whether [get_paddle_api] is that of [GenericMatcher] (api_matcher.py:94-96).  Not
    listed: [TensorSplitMatcher], [SetUpMatcher], [FAApplyRotaryEmbFuncMatcher]. *)
Definition generators : list (string * (bool * block)) := [
  ("ADVariableMatcher", (false, g_ADVariableMatcher));
  ("AddBmmMatcher", (false, g_AddBmmMatcher));
  ("AddBmm_Matcher", (false, g_AddBmm_Matcher));
  ("AddCDivMatcher", (false, g_AddCDivMatcher));
  ("AddCMulMatcher", (false, g_AddCMulMatcher));
  ("AddCMul_Matcher", (false, g_AddCMul_Matcher));
  ("AddMRMatcher", (false, g_AddMRMatcher));
  ("AdjointMatcher", (false, g_AdjointMatcher));
  ("AllcloseMatcher", (false, g_AllcloseMatcher));
  ("AvgPoolMatcher", (false, g_AvgPoolMatcher));
  ("BoxesConvertMatcher", (false, g_BoxesConvertMatcher));
  ("CanCastMatcher", (false, g_CanCastMatcher));
  ("CifarMatcher", (false, g_CifarMatcher));
  ("ConstantLRMatcher", (false, g_ConstantLRMatcher));
  ("CudaSeedMatcher", (false, g_CudaSeedMatcher));
  ("CudnnIsAvailableMatcher", (false, g_CudnnIsAvailableMatcher));
  ("DecodeJpegMatcher", (false, g_DecodeJpegMatcher));
  ("DetachMatcher", (false, g_DetachMatcher));
  ("Device2StrMatcher", (false, g_Device2StrMatcher));
  ("DimOrderMatcher", (false, g_DimOrderMatcher));
  ("DistributedBackendMatcher", (false, g_DistributedBackendMatcher));
  ("DoubleAssignMatcher", (false, g_DoubleAssignMatcher));
  ("EqualMatcher", (false, g_EqualMatcher));
  ("ErfCMatcher", (false, g_ErfCMatcher));
  ("ErfC_Matcher", (false, g_ErfC_Matcher));
  ("Exp2Matcher", (false, g_Exp2Matcher));
  ("ExpitMatcher", (false, g_ExpitMatcher));
  ("FAFlashAttnFuncMatcher", (false, g_FAFlashAttnFuncMatcher));
  ("FAFlashAttnUnpaddedFuncMatcher", (false, g_FAFlashAttnUnpaddedFuncMatcher));
  ("FARmsNorm", (false, g_FARmsNorm));
  ("FSInitializeModelParallelMatcher", (false, g_FSInitializeModelParallelMatcher));
  ("FSModelParallelIsInitializedMatcher", (false, g_FSModelParallelIsInitializedMatcher));
  ("FSParallelEmbeddingMatcher", (false, g_FSParallelEmbeddingMatcher));
  ("FSoftMinMatcher", (false, g_FSoftMinMatcher));
  ("FloatPowerInplaceMatcher", (false, g_FloatPowerInplaceMatcher));
  ("FloatPowerMatcher", (false, g_FloatPowerMatcher));
  ("Flowers102Matcher", (false, g_Flowers102Matcher));
  ("ForeachErfcMatcher", (false, g_ForeachErfcMatcher));
  ("ForeachErfc_Matcher", (false, g_ForeachErfc_Matcher));
  ("ForeachMatcher", (false, g_ForeachMatcher));
  ("ForeachTensorMatcher", (false, g_ForeachTensorMatcher));
  ("Fractional_Max_pool2dMatcher", (false, g_Fractional_Max_pool2dMatcher));
  ("Fractional_Max_pool3dMatcher", (false, g_Fractional_Max_pool3dMatcher));
  ("FromBufferMatcher", (false, g_FromBufferMatcher));
  ("Func2Attribute", (false, g_Func2Attribute));
  ("FunctionalBilinearMatcher", (false, g_FunctionalBilinearMatcher));
  ("GRUCellMatcher", (false, g_GRUCellMatcher));
  ("GenericMatcher", (true, g_GenericMatcher));
  ("GetLoggerMatcher", (false, g_GetLoggerMatcher));
  ("GetNumInteropThreadsMatcher", (false, g_GetNumInteropThreadsMatcher));
  ("GetNumThreadsMatcher", (false, g_GetNumThreadsMatcher));
  ("Get_EnumMatcher", (false, g_Get_EnumMatcher));
  ("HistcMatcher", (false, g_HistcMatcher));
  ("HistogramMatcher", (false, g_HistogramMatcher));
  ("IndexCopyMatcher", (false, g_IndexCopyMatcher));
  ("IsNonzeroMatcher", (false, g_IsNonzeroMatcher));
  ("Is_InferenceMatcher", (false, g_Is_InferenceMatcher));
  ("Is_PinnedMatcher", (false, g_Is_PinnedMatcher));
  ("JitSaveMatcher", (false, g_JitSaveMatcher));
  ("LRSchedulerMatcher", (false, g_LRSchedulerMatcher));
  ("LSTMCellMatcher", (false, g_LSTMCellMatcher));
  ("LinalgCholeskyExMatcher", (false, g_LinalgCholeskyExMatcher));
  ("LinalgInvExMatcher", (false, g_LinalgInvExMatcher));
  ("LinalgLuMatcher", (false, g_LinalgLuMatcher));
  ("LinalgLuSolveMatcher", (false, g_LinalgLuSolveMatcher));
  ("LinalgSolveTriangularMatcher", (false, g_LinalgSolveTriangularMatcher));
  ("LoadMatcher", (false, g_LoadMatcher));
  ("LogAddExp2Matcher", (false, g_LogAddExp2Matcher));
  ("LogDetMatcher", (false, g_LogDetMatcher));
  ("LogSoftmaxMatcher", (false, g_LogSoftmaxMatcher));
  ("LuMatcher", (false, g_LuMatcher));
  ("Lu_unpackMatcher", (false, g_Lu_unpackMatcher));
  ("MNISTMatcher", (false, g_MNISTMatcher));
  ("MPCpuCountMatcher", (false, g_MPCpuCountMatcher));
  ("NTupleMatcher", (false, g_NTupleMatcher));
  ("NarrowCopyMatcher", (false, g_NarrowCopyMatcher));
  ("NumelMatcher", (false, g_NumelMatcher));
  ("OneCycleLRMatcher", (false, g_OneCycleLRMatcher));
  ("OnnxExportMatcher", (false, g_OnnxExportMatcher));
  ("Optim2LrSchedulerMatcher", (false, g_Optim2LrSchedulerMatcher));
  ("OptimAdamMatcher", (false, g_OptimAdamMatcher));
  ("OsEnvironGetMatcher", (false, g_OsEnvironGetMatcher));
  ("QrMatcher", (false, g_QrMatcher));
  ("RNNBaseMatcher", (false, g_RNNBaseMatcher));
  ("RNNCellMatcher", (false, g_RNNCellMatcher));
  ("RNNMatcher", (false, g_RNNMatcher));
  ("ReduceScatterTensorMatcher", (false, g_ReduceScatterTensorMatcher));
  ("RequireDimMatcher", (false, g_RequireDimMatcher));
  ("ReverseAsyncOpMatcher", (false, g_ReverseAsyncOpMatcher));
  ("ReverseMomentumMatcher", (false, g_ReverseMomentumMatcher));
  ("RpcRemoteMatcher", (false, g_RpcRemoteMatcher));
  ("SLogDetMatcher", (false, g_SLogDetMatcher));
  ("SelectMatcher", (false, g_SelectMatcher));
  ("SetNumInteropThreadsMatcher", (false, g_SetNumInteropThreadsMatcher));
  ("SetNumThreadsMatcher", (false, g_SetNumThreadsMatcher));
  ("SetPerProcessMemoryFractionMatcher", (false, g_SetPerProcessMemoryFractionMatcher));
  ("SetPrintOptionsMatcher", (false, g_SetPrintOptionsMatcher));
  ("SignalWindowsWatcher", (false, g_SignalWindowsWatcher));
  ("SoftminMatcher", (false, g_SoftminMatcher));
  ("SortMatcher", (false, g_SortMatcher));
  ("SparseSoftmaxMatcher", (false, g_SparseSoftmaxMatcher));
  ("SpecialErfcxMatcher", (false, g_SpecialErfcxMatcher));
  ("SpecialNdtrMatcher", (false, g_SpecialNdtrMatcher));
  ("SpecialNdtriMatcher", (false, g_SpecialNdtriMatcher));
  ("SpecialXLog1pYMatcher", (false, g_SpecialXLog1pYMatcher));
  ("StdMeanMatcher", (false, g_StdMeanMatcher));
  ("StftMatcher", (false, g_StftMatcher));
  ("SvdMatcher", (false, g_SvdMatcher));
  ("SymeigMatcher", (false, g_SymeigMatcher));
  ("TensorFunc2PaddleFunc", (false, g_TensorFunc2PaddleFunc));
  ("TensorInplaceReserveTypeMatcher", (false, g_TensorInplaceReserveTypeMatcher));
  ("TensorIsSignedMatcher", (false, g_TensorIsSignedMatcher));
  ("TensorSetMatcher", (true, g_TensorSetMatcher));
  ("TensorToSparseCooMatcher", (false, g_TensorToSparseCooMatcher));
  ("TensorTriangularSolveMatcher", (false, g_TensorTriangularSolveMatcher));
  ("TensorTypeMatcher", (false, g_TensorTypeMatcher));
  ("TensorWhereMatcher", (false, g_TensorWhereMatcher));
  ("TransformsPositiveDefiniteTransformMatcher", (false, g_TransformsPositiveDefiniteTransformMatcher));
  ("TriangularSolveMatcher", (false, g_TriangularSolveMatcher));
  ("TripleAssignMatcher", (false, g_TripleAssignMatcher));
  ("UtilsSetModuleMatcher", (false, g_UtilsSetModuleMatcher));
  ("VGGMatcher", (false, g_VGGMatcher));
  ("VOCDetectionMatcher", (false, g_VOCDetectionMatcher));
  ("VarMeanMatcher", (false, g_VarMeanMatcher));
  ("XLogYMatcher", (false, g_XLogYMatcher));
  ("XLogY_Matcher", (false, g_XLogY_Matcher));
  ("ZeroGradMatcher", (false, g_ZeroGradMatcher))].

(** "convert_tensor" of api_mapping.json. *)
Definition convert_tensors : list (string * list string) := [
  ("torch.Tensor.eq_", ["other"]);
  ("torch.Tensor.ge_", ["other"]);
  ("torch.Tensor.gt_", ["other"]);
  ("torch.Tensor.le_", ["other"]);
  ("torch.Tensor.lt_", ["other"]);
  ("torch.Tensor.ne_", ["other"])].
