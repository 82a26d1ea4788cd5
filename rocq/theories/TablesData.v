(** Generated from the JSON tables of /repo/paconvert (api_mapping.json,
    attribute_mapping.json, api_alias_mapping.json, api_wildcard_mapping.json), from
    global_var.py:40-75 and from the class statements of api_matcher.py.
    Data only.  Absent fields take the value the code reads for them
    ([.get(..) or []], [.get(.., {})]); [disable]/[abstract] record presence / truth;
    "convert_tensor" and "enable_utils_code", read only by code outside the model, are left out.  Default values are
    kept as the text ["{}".format] prints. *)
From Verif Require Import PyStr PyDict Args.

Record row := R { r_name : string; r_matcher : option string; r_disable : bool;
                  r_abstract : bool; r_entry : entry }.
Definition bare (p : option string) : entry := MkEntry [] [] 0 [] [] [] p.

Definition api_mapping_0 : list row := [
  R "fairscale.nn.model_parallel.initialize.get_model_parallel_rank" (Some "ChangeAPIMatcher") false false (bare (Some "paddle.distributed.fleet.base.topology._HYBRID_PARALLEL_GROUP.get_model_parallel_rank"));
  R "fairscale.nn.model_parallel.initialize.get_model_parallel_world_size" (Some "Func2Attribute") false false (bare (Some "paddle.distributed.fleet.base.topology._HYBRID_PARALLEL_GROUP._mp_degree"));
  R "fairscale.nn.model_parallel.initialize.initialize_model_parallel" (Some "FSInitializeModelParallelMatcher") false false (MkEntry ["model_parallel_size_"; "pipeline_length"; "*"; "model_parallel_backend"; "pipeline_backend"; "ddp_backend"] [] 1 [] [("model_parallel_backend", TNone); ("pipeline_backend", TNone); ("ddp_backend", TNone)] [] None);
  R "fairscale.nn.model_parallel.initialize.model_parallel_is_initialized" (Some "FSModelParallelIsInitializedMatcher") false false (bare None);
  R "fairscale.nn.model_parallel.layers.ColumnParallelLinear" (Some "GenericMatcher") false false (MkEntry ["in_features"; "out_features"; "bias"; "gather_output"; "init_method"; "stride"; "keep_master_weight_for_test"] [] 0 ["stride"] [("bias", TName "has_bias"); ("init_method", TNone); ("keep_master_weight_for_test", TNone)] [("has_bias", "True")] (Some "paddle.distributed.fleet.meta_parallel.ColumnParallelLinear"));
  R "fairscale.nn.model_parallel.layers.ParallelEmbedding" (Some "FSParallelEmbeddingMatcher") false false (MkEntry ["num_embeddings"; "embedding_dim"; "padding_idx"; "max_norm"; "norm_type"; "scale_grad_by_freq"; "sparse"; "init_method"; "keep_master_weight_for_test"] [] 0 ["padding_idx"; "norm_type"; "scale_grad_by_freq"; "sparse"; "max_norm"] [("init_method", TNone); ("keep_master_weight_for_test", TNone)] [] (Some "paddle.distributed.fleet.meta_parallel.VocabParallelEmbedding"));
  R "fairscale.nn.model_parallel.layers.RowParallelLinear" (Some "GenericMatcher") false false (MkEntry ["in_features"; "out_features"; "bias"; "input_is_parallel"; "init_method"; "stride"; "keep_master_weight_for_test"] [] 0 ["stride"] [("bias", TName "has_bias"); ("init_method", TNone); ("keep_master_weight_for_test", TNone)] [("has_bias", "True")] (Some "paddle.distributed.fleet.meta_parallel.RowParallelLinear"));
  R "flash_attn.__version__.split" (Some "ChangeAPIMatcher") false false (MkEntry ["sep"; "maxsplit"] [] 0 [] [] [] (Some "paddle.__version__.split"));
  R "flash_attn.flash_attn_interface.flash_attn_func" (Some "FAFlashAttnFuncMatcher") false false (MkEntry ["q"; "k"; "v"; "dropout_p"; "softmax_scale"; "causal"; "window_size"; "softcap"; "alibi_slopes"; "deterministic"; "return_attn_probs"] [] 0 ["softmax_scale"; "window_size"; "softcap"; "alibi_slopes"; "deterministic"] [("q", TName "query"); ("k", TName "key"); ("v", TName "value"); ("dropout_p", TName "dropout"); ("return_attn_probs", TName "return_softmax")] [] (Some "paddle.nn.functional.flash_attention.flash_attention"));
  R "flash_attn.flash_attn_interface.flash_attn_unpadded_func" (Some "FAFlashAttnUnpaddedFuncMatcher") false false (MkEntry ["q"; "k"; "v"; "cu_seqlens_q"; "cu_seqlens_k"; "max_seqlen_q"; "max_seqlen_k"; "dropout_p"; "softmax_scale"; "causal"; "window_size"; "softcap"; "alibi_slopes"; "deterministic"; "return_attn_probs"; "block_table"] [] 0 ["window_size"; "softcap"; "alibi_slopes"; "deterministic"; "block_table"] [("q", TName "query"); ("k", TName "key"); ("v", TName "value"); ("dropout_p", TName "dropout"); ("softmax_scale", TName "scale"); ("return_attn_probs", TName "return_softmax")] [] (Some "paddle.nn.functional.flash_attention.flash_attn_unpadded"));
  R "flash_attn.layers.rotary.apply_rotary_emb_func" (Some "FAApplyRotaryEmbFuncMatcher") false false (MkEntry ["x"; "cos"; "sin"; "interleaved"; "inplace"; "seqlen_offsets"; "cu_seqlens"; "max_seqlen"] [] 0 [] [] [] None);
  R "flash_attn.ops.rms_norm.rms_norm" (Some "FARmsNorm") false false (MkEntry ["x"; "weight"; "epsilon"] [] 3 [] [("weight", TName "norm_weight")] [] (Some "paddle.incubate.nn.functional.fused_rms_norm"));
  R "os.environ.get" (Some "OsEnvironGetMatcher") false false (MkEntry ["key"; "value"] [] 0 [] [] [] None);
  R "setuptools.setup" (Some "SetUpMatcher") false false (MkEntry ["name"; "version"; "author"; "url"; "description"; "packages"; "ext_modules"; "cmdclass"; "install_requires"; "entry_points"] [] 0 [] [] [] None);
  R "torch.BFloat16Tensor" (Some "ChangePrefixMatcher") false false (bare None);
  R "torch.BoolTensor" (Some "ChangePrefixMatcher") false false (bare None);
  R "torch.ByteTensor" (Some "ChangePrefixMatcher") false false (bare None);
  R "torch.CharTensor" (Some "ChangePrefixMatcher") false false (bare None);
  R "torch.DoubleTensor" (Some "ChangePrefixMatcher") false false (bare None);
  R "torch.FloatTensor" (Some "ChangePrefixMatcher") false false (bare None);
  R "torch.Generator" (Some "ChangePrefixMatcher") false false (bare None);
  R "torch.HalfTensor" (Some "ChangePrefixMatcher") false false (bare None);
  R "torch.IntTensor" (Some "ChangePrefixMatcher") false false (bare None);
  R "torch.LongTensor" (Some "ChangePrefixMatcher") false false (bare None);
  R "torch.ShortTensor" (Some "ChangePrefixMatcher") false false (bare None);
  R "torch.Size" (Some "ChangePrefixMatcher") false false (bare None);
  R "torch.Tensor" (Some "ChangePrefixMatcher") false false (bare None);
  R "torch.Tensor.__add__" (Some "ChangePrefixMatcher") false false (bare None);
  R "torch.Tensor.__and__" (Some "ChangePrefixMatcher") false false (bare None);
  R "torch.Tensor.__array__" (Some "ChangePrefixMatcher") false false (bare None);
  R "torch.Tensor.__bool__" (Some "ChangePrefixMatcher") false false (bare None);
  R "torch.Tensor.__deepcopy__" (Some "ChangePrefixMatcher") false false (bare None);
  R "torch.Tensor.__eq__" (Some "ChangePrefixMatcher") false false (bare None);
  R "torch.Tensor.__floordiv__" (Some "ChangePrefixMatcher") false false (bare None);
  R "torch.Tensor.__format__" (Some "ChangePrefixMatcher") false false (bare None);
  R "torch.Tensor.__ge__" (Some "ChangePrefixMatcher") false false (bare None);
  R "torch.Tensor.__getitem__" (Some "ChangePrefixMatcher") false false (bare None);
  R "torch.Tensor.__gt__" (Some "ChangePrefixMatcher") false false (bare None);
  R "torch.Tensor.__index__" (Some "ChangePrefixMatcher") false false (bare None);
  R "torch.Tensor.__int__" (Some "ChangePrefixMatcher") false false (bare None);
  R "torch.Tensor.__invert__" (Some "ChangePrefixMatcher") false false (bare None);
  R "torch.Tensor.__ior__" (Some "ChangePrefixMatcher") false false (bare None);
  R "torch.Tensor.__le__" (Some "ChangePrefixMatcher") false false (bare None);
  R "torch.Tensor.__len__" (Some "ChangePrefixMatcher") false false (bare None);
  R "torch.Tensor.__lt__" (Some "ChangePrefixMatcher") false false (bare None);
  R "torch.Tensor.__mul__" (Some "ChangePrefixMatcher") false false (bare None);
  R "torch.Tensor.__ne__" (Some "ChangePrefixMatcher") false false (bare None);
  R "torch.Tensor.__neg__" (Some "ChangePrefixMatcher") false false (bare None);
  R "torch.Tensor.__or__" (Some "ChangePrefixMatcher") false false (bare None);
  R "torch.Tensor.__pow__" (Some "ChangePrefixMatcher") false false (bare None);
  R "torch.Tensor.__radd__" (Some "ChangePrefixMatcher") false false (bare None);
  R "torch.Tensor.__reduce_ex__" (Some "ChangePrefixMatcher") false false (bare None);
  R "torch.Tensor.__rmul__" (Some "ChangePrefixMatcher") false false (bare None);
  R "torch.Tensor.__rpow__" (Some "ChangePrefixMatcher") false false (bare None);
  R "torch.Tensor.__rsub__" (Some "ChangePrefixMatcher") false false (bare None);
  R "torch.Tensor.__rtruediv__" (Some "ChangePrefixMatcher") false false (bare None);
  R "torch.Tensor.__setitem__" (Some "ChangePrefixMatcher") false false (bare None);
  R "torch.Tensor.__sub__" (Some "ChangePrefixMatcher") false false (bare None);
  R "torch.Tensor.__xor__" (Some "ChangePrefixMatcher") false false (bare None);
  R "torch.Tensor.abs" (Some "ChangePrefixMatcher") false false (bare None);
  R "torch.Tensor.abs_" (Some "ChangePrefixMatcher") false false (bare None);
  R "torch.Tensor.absolute" (Some "ChangePrefixMatcher") false false (bare None);
  R "torch.Tensor.absolute_" (Some "ChangePrefixMatcher") false false (bare None);
  R "torch.Tensor.acos" (Some "ChangePrefixMatcher") false false (bare None);
  R "torch.Tensor.acos_" (Some "ChangePrefixMatcher") false false (bare None);
  R "torch.Tensor.acosh" (Some "ChangePrefixMatcher") false false (bare None);
  R "torch.Tensor.acosh_" (Some "ChangePrefixMatcher") false false (bare None);
  R "torch.Tensor.add" (Some "ChangePrefixMatcher") false false (bare None);
  R "torch.Tensor.add_" (Some "ChangePrefixMatcher") false false (bare None);
  R "torch.Tensor.addbmm" (Some "AddBmmMatcher") false false (MkEntry ["batch1"; "batch2"; "*"; "beta"; "alpha"] [] 2 [] [] [] None);
  R "torch.Tensor.addbmm_" (Some "AddBmm_Matcher") false false (MkEntry ["batch1"; "batch2"; "*"; "beta"; "alpha"] [] 2 [] [] [] None);
  R "torch.Tensor.addcdiv" (Some "ChangePrefixMatcher") false false (bare None);
  R "torch.Tensor.addcdiv_" (Some "ChangePrefixMatcher") false false (bare None);
  R "torch.Tensor.addcmul" (Some "AddCMulMatcher") false false (MkEntry ["tensor1"; "tensor2"; "*"; "value"] [] 2 [] [] [] None);
  R "torch.Tensor.addcmul_" (Some "AddCMul_Matcher") false false (MkEntry ["tensor1"; "tensor2"; "*"; "value"] [] 2 [] [] [] None);
  R "torch.Tensor.addmm" (Some "ChangePrefixMatcher") false false (bare None);
  R "torch.Tensor.addmm_" (Some "ChangePrefixMatcher") false false (bare None);
  R "torch.Tensor.addmv" (Some "AddMRMatcher") false false (MkEntry ["mat"; "vec"; "*"; "beta"; "alpha"] [] 2 [] [] [] (Some "paddle.mm"));
  R "torch.Tensor.addmv_" (Some "ChangePrefixMatcher") false false (bare None);
  R "torch.Tensor.addr" (Some "AddMRMatcher") false false (MkEntry ["vec1"; "vec2"; "*"; "beta"; "alpha"] [] 2 [] [] [] (Some "paddle.outer"));
  R "torch.Tensor.addr_" (Some "ChangePrefixMatcher") false false (bare None);
  R "torch.Tensor.adjoint" (Some "AdjointMatcher") false false (bare None);
  R "torch.Tensor.align_as" None false false (bare None);
  R "torch.Tensor.align_to" None false false (bare None);
  R "torch.Tensor.all" (Some "ChangePrefixMatcher") false false (bare None);
  R "torch.Tensor.allclose" (Some "AllcloseMatcher") false false (MkEntry ["other"; "rtol"; "atol"; "equal_nan"] [] 1 [] [("other", TName "y")] [] (Some "paddle.Tensor.allclose"));
  R "torch.Tensor.amax" (Some "ChangePrefixMatcher") false false (bare None);
  R "torch.Tensor.amin" (Some "ChangePrefixMatcher") false false (bare None);
  R "torch.Tensor.aminmax" (Some "ChangePrefixMatcher") false false (bare None);
  R "torch.Tensor.angle" (Some "ChangePrefixMatcher") false false (bare None);
  R "torch.Tensor.any" (Some "ChangePrefixMatcher") false false (bare None);
  R "torch.Tensor.apply_" (Some "ChangePrefixMatcher") false false (bare None);
  R "torch.Tensor.argmax" (Some "ChangePrefixMatcher") false false (bare None);
  R "torch.Tensor.argmin" (Some "ChangePrefixMatcher") false false (bare None);
  R "torch.Tensor.argsort" (Some "ChangePrefixMatcher") false false (bare None);
  R "torch.Tensor.argwhere" (Some "ChangeAPIMatcher") false false (bare (Some "paddle.Tensor.nonzero"));
  R "torch.Tensor.as_strided" (Some "ChangePrefixMatcher") false false (bare None);
  R "torch.Tensor.as_subclass" None false false (bare None);
  R "torch.Tensor.asin" (Some "ChangePrefixMatcher") false false (bare None);
  R "torch.Tensor.asin_" (Some "ChangePrefixMatcher") false false (bare None)].

Definition api_mapping_1 : list row := [
  R "torch.Tensor.asinh" (Some "ChangePrefixMatcher") false false (bare None);
  R "torch.Tensor.asinh_" (Some "ChangePrefixMatcher") false false (bare None);
  R "torch.Tensor.atan" (Some "ChangePrefixMatcher") false false (bare None);
  R "torch.Tensor.atan2" (Some "ChangePrefixMatcher") false false (bare None);
  R "torch.Tensor.atan2_" None false false (bare None);
  R "torch.Tensor.atan_" (Some "ChangePrefixMatcher") false false (bare None);
  R "torch.Tensor.atanh" (Some "ChangePrefixMatcher") false false (bare None);
  R "torch.Tensor.atanh_" (Some "ChangePrefixMatcher") false false (bare None);
  R "torch.Tensor.backward" (Some "ChangePrefixMatcher") false false (bare None);
  R "torch.Tensor.baddbmm" (Some "ChangePrefixMatcher") false false (bare None);
  R "torch.Tensor.baddbmm_" (Some "ChangePrefixMatcher") false false (bare None);
  R "torch.Tensor.bernoulli" (Some "ChangePrefixMatcher") false false (bare None);
  R "torch.Tensor.bernoulli_" (Some "ChangePrefixMatcher") false false (bare None);
  R "torch.Tensor.bfloat16" (Some "ChangePrefixMatcher") false false (bare None);
  R "torch.Tensor.bincount" (Some "ChangePrefixMatcher") false false (bare None);
  R "torch.Tensor.bitwise_and" (Some "ChangePrefixMatcher") false false (bare None);
  R "torch.Tensor.bitwise_and_" (Some "ChangePrefixMatcher") false false (bare None);
  R "torch.Tensor.bitwise_left_shift" (Some "ChangePrefixMatcher") false false (bare None);
  R "torch.Tensor.bitwise_left_shift_" (Some "ChangePrefixMatcher") false false (bare None);
  R "torch.Tensor.bitwise_not" (Some "ChangePrefixMatcher") false false (bare None);
  R "torch.Tensor.bitwise_not_" (Some "ChangePrefixMatcher") false false (bare None);
  R "torch.Tensor.bitwise_or" (Some "ChangePrefixMatcher") false false (bare None);
  R "torch.Tensor.bitwise_or_" (Some "ChangePrefixMatcher") false false (bare None);
  R "torch.Tensor.bitwise_right_shift" (Some "ChangePrefixMatcher") false false (bare None);
  R "torch.Tensor.bitwise_right_shift_" (Some "ChangePrefixMatcher") false false (bare None);
  R "torch.Tensor.bitwise_xor" (Some "ChangePrefixMatcher") false false (bare None);
  R "torch.Tensor.bitwise_xor_" (Some "ChangePrefixMatcher") false false (bare None);
  R "torch.Tensor.bmm" (Some "ChangePrefixMatcher") false false (bare None);
  R "torch.Tensor.bool" (Some "ChangePrefixMatcher") false false (bare None);
  R "torch.Tensor.broadcast_to" (Some "ChangePrefixMatcher") false false (bare None);
  R "torch.Tensor.byte" (Some "ChangePrefixMatcher") false false (bare None);
  R "torch.Tensor.cauchy_" (Some "ChangePrefixMatcher") false false (bare None);
  R "torch.Tensor.ccol_indices" None false false (bare None);
  R "torch.Tensor.cdouble" (Some "ChangePrefixMatcher") false false (bare None);
  R "torch.Tensor.ceil" (Some "ChangePrefixMatcher") false false (bare None);
  R "torch.Tensor.ceil_" (Some "ChangePrefixMatcher") false false (bare None);
  R "torch.Tensor.cfloat" (Some "ChangePrefixMatcher") false false (bare None);
  R "torch.Tensor.chalf" None false false (bare None);
  R "torch.Tensor.char" (Some "ChangePrefixMatcher") false false (bare None);
  R "torch.Tensor.cholesky" (Some "ChangePrefixMatcher") false false (bare None);
  R "torch.Tensor.cholesky_inverse" (Some "ChangePrefixMatcher") false false (bare None);
  R "torch.Tensor.cholesky_solve" (Some "GenericMatcher") false false (MkEntry ["input2"; "upper"] [] 1 [] [("input2", TName "y")] [] (Some "paddle.Tensor.cholesky_solve"));
  R "torch.Tensor.chunk" (Some "ChangePrefixMatcher") false false (bare None);
  R "torch.Tensor.clamp" (Some "ChangePrefixMatcher") false false (bare None);
  R "torch.Tensor.clamp_" (Some "ChangePrefixMatcher") false false (bare None);
  R "torch.Tensor.clip" (Some "ChangePrefixMatcher") false false (bare None);
  R "torch.Tensor.clip_" (Some "ChangePrefixMatcher") false false (bare None);
  R "torch.Tensor.clone" (Some "ChangePrefixMatcher") false false (bare None);
  R "torch.Tensor.coalesce" (Some "ChangePrefixMatcher") false false (bare None);
  R "torch.Tensor.col_indices" (Some "ChangePrefixMatcher") false false (bare None);
  R "torch.Tensor.conj" (Some "ChangePrefixMatcher") false false (bare None);
  R "torch.Tensor.conj_physical" (Some "ChangeAPIMatcher") false false (bare (Some "paddle.Tensor.conj"));
  R "torch.Tensor.conj_physical_" None false false (bare None);
  R "torch.Tensor.contiguous" (Some "ChangePrefixMatcher") false false (bare None);
  R "torch.Tensor.copy_" (Some "ChangePrefixMatcher") false false (bare None);
  R "torch.Tensor.copysign" (Some "ChangePrefixMatcher") false false (bare None);
  R "torch.Tensor.copysign_" (Some "ChangePrefixMatcher") false false (bare None);
  R "torch.Tensor.corrcoef" (Some "ChangePrefixMatcher") false false (bare None);
  R "torch.Tensor.cos" (Some "ChangePrefixMatcher") false false (bare None);
  R "torch.Tensor.cos_" (Some "ChangePrefixMatcher") false false (bare None);
  R "torch.Tensor.cosh" (Some "ChangePrefixMatcher") false false (bare None);
  R "torch.Tensor.cosh_" (Some "ChangePrefixMatcher") false false (bare None);
  R "torch.Tensor.count_nonzero" (Some "ChangePrefixMatcher") false false (bare None);
  R "torch.Tensor.cov" (Some "GenericMatcher") false false (MkEntry ["*"; "correction"; "fweights"; "aweights"] [] 0 [] [("correction", TName "ddof")] [] (Some "paddle.Tensor.cov"));
  R "torch.Tensor.cpu" (Some "ChangePrefixMatcher") false false (bare None);
  R "torch.Tensor.cross" (Some "ChangePrefixMatcher") false false (bare None);
  R "torch.Tensor.crow_indices" (Some "ChangePrefixMatcher") false false (bare None);
  R "torch.Tensor.cuda" (Some "ChangePrefixMatcher") false false (bare None);
  R "torch.Tensor.cummax" (Some "ChangePrefixMatcher") false false (bare None);
  R "torch.Tensor.cummin" (Some "ChangePrefixMatcher") false false (bare None);
  R "torch.Tensor.cumprod" (Some "ChangePrefixMatcher") false false (bare None);
  R "torch.Tensor.cumprod_" (Some "ChangePrefixMatcher") false false (bare None);
  R "torch.Tensor.cumsum" (Some "ChangePrefixMatcher") false false (bare None);
  R "torch.Tensor.cumsum_" (Some "ChangePrefixMatcher") false false (bare None);
  R "torch.Tensor.data_ptr" (Some "ChangePrefixMatcher") false false (bare None);
  R "torch.Tensor.deg2rad" (Some "ChangePrefixMatcher") false false (bare None);
  R "torch.Tensor.dense_dim" (Some "ChangePrefixMatcher") false false (bare None);
  R "torch.Tensor.dequantize" None false false (bare None);
  R "torch.Tensor.det" (Some "ChangePrefixMatcher") false false (bare None);
  R "torch.Tensor.detach" (Some "ChangePrefixMatcher") false false (bare None);
  R "torch.Tensor.detach_" (Some "ChangePrefixMatcher") false false (bare None);
  R "torch.Tensor.diag" (Some "ChangePrefixMatcher") false false (bare None);
  R "torch.Tensor.diag_embed" (Some "ChangePrefixMatcher") false false (bare None);
  R "torch.Tensor.diagflat" (Some "ChangePrefixMatcher") false false (bare None);
  R "torch.Tensor.diagonal" (Some "ChangePrefixMatcher") false false (bare None);
  R "torch.Tensor.diagonal_scatter" (Some "ChangePrefixMatcher") false false (bare None);
  R "torch.Tensor.diff" (Some "ChangePrefixMatcher") false false (bare None);
  R "torch.Tensor.digamma" (Some "ChangePrefixMatcher") false false (bare None);
  R "torch.Tensor.digamma_" (Some "ChangePrefixMatcher") false false (bare None);
  R "torch.Tensor.dim" (Some "ChangePrefixMatcher") false false (bare None);
  R "torch.Tensor.dim_order" (Some "DimOrderMatcher") false false (bare None);
  R "torch.Tensor.dist" (Some "ChangePrefixMatcher") false false (bare None);
  R "torch.Tensor.div" (Some "ChangePrefixMatcher") false false (bare None);
  R "torch.Tensor.div_" (Some "ChangePrefixMatcher") false false (bare None);
  R "torch.Tensor.divide" (Some "ChangePrefixMatcher") false false (bare None);
  R "torch.Tensor.divide_" (Some "ChangePrefixMatcher") false false (bare None);
  R "torch.Tensor.dot" (Some "ChangePrefixMatcher") false false (bare None);
  R "torch.Tensor.double" (Some "ChangePrefixMatcher") false false (bare None);
  R "torch.Tensor.dsplit" (Some "GenericMatcher") false false (MkEntry ["indices"] ["sections"] 1 [] [("indices", TName "num_or_indices"); ("sections", TName "num_or_indices")] [] (Some "paddle.Tensor.dsplit"));
  R "torch.Tensor.eig" None false false (bare None)].

Definition api_mapping_2 : list row := [
  R "torch.Tensor.element_size" (Some "ChangePrefixMatcher") false false (bare None);
  R "torch.Tensor.eq" (Some "ChangePrefixMatcher") false false (bare None);
  R "torch.Tensor.eq_" (Some "TensorInplaceReserveTypeMatcher") false false (MkEntry ["other"] [] 1 [] [("other", TName "y")] [] (Some "paddle.Tensor.equal_"));
  R "torch.Tensor.equal" (Some "EqualMatcher") false false (MkEntry ["other"] [] 1 [] [("other", TName "y")] [] (Some "paddle.Tensor.equal_all"));
  R "torch.Tensor.erf" (Some "ChangePrefixMatcher") false false (bare None);
  R "torch.Tensor.erf_" (Some "ChangePrefixMatcher") false false (bare None);
  R "torch.Tensor.erfc" (Some "ErfCMatcher") false false (bare None);
  R "torch.Tensor.erfc_" (Some "ErfC_Matcher") false false (bare None);
  R "torch.Tensor.erfinv" (Some "ChangePrefixMatcher") false false (bare None);
  R "torch.Tensor.erfinv_" (Some "ChangePrefixMatcher") false false (bare None);
  R "torch.Tensor.exp" (Some "ChangePrefixMatcher") false false (bare None);
  R "torch.Tensor.exp_" (Some "ChangePrefixMatcher") false false (bare None);
  R "torch.Tensor.expand" (Some "ChangePrefixMatcher") false false (bare None);
  R "torch.Tensor.expand_as" (Some "ChangePrefixMatcher") false false (bare None);
  R "torch.Tensor.expand_copy" (Some "ChangePrefixMatcher") false false (bare None);
  R "torch.Tensor.expm1" (Some "ChangePrefixMatcher") false false (bare None);
  R "torch.Tensor.expm1_" (Some "ChangePrefixMatcher") false false (bare None);
  R "torch.Tensor.exponential_" (Some "ChangePrefixMatcher") false false (bare None);
  R "torch.Tensor.fill_" (Some "ChangePrefixMatcher") false false (bare None);
  R "torch.Tensor.fill_diagonal_" (Some "ChangePrefixMatcher") false false (bare None);
  R "torch.Tensor.fix" (Some "ChangeAPIMatcher") false false (bare (Some "paddle.Tensor.trunc"));
  R "torch.Tensor.fix_" (Some "ChangePrefixMatcher") false false (bare None);
  R "torch.Tensor.flatten" (Some "ChangePrefixMatcher") false false (bare None);
  R "torch.Tensor.flip" (Some "ChangePrefixMatcher") false false (bare None);
  R "torch.Tensor.fliplr" (Some "GenericMatcher") false false (MkEntry [] [] 0 [] [] [("axis", "1")] (Some "paddle.Tensor.flip"));
  R "torch.Tensor.flipud" (Some "GenericMatcher") false false (MkEntry [] [] 0 [] [] [("axis", "0")] (Some "paddle.Tensor.flip"));
  R "torch.Tensor.float" (Some "ChangePrefixMatcher") false false (bare None);
  R "torch.Tensor.float_power" (Some "FloatPowerMatcher") false false (MkEntry ["exponent"] [] 1 [] [] [] None);
  R "torch.Tensor.float_power_" (Some "FloatPowerInplaceMatcher") false false (MkEntry ["exponent"] [] 1 [] [] [] None);
  R "torch.Tensor.floor" (Some "ChangePrefixMatcher") false false (bare None);
  R "torch.Tensor.floor_" (Some "ChangePrefixMatcher") false false (bare None);
  R "torch.Tensor.floor_divide" (Some "ChangePrefixMatcher") false false (bare None);
  R "torch.Tensor.floor_divide_" (Some "ChangePrefixMatcher") false false (bare None);
  R "torch.Tensor.fmax" (Some "ChangePrefixMatcher") false false (bare None);
  R "torch.Tensor.fmin" (Some "ChangePrefixMatcher") false false (bare None);
  R "torch.Tensor.fmod" (Some "ChangePrefixMatcher") false false (bare None);
  R "torch.Tensor.fmod_" (Some "ChangePrefixMatcher") false false (bare None);
  R "torch.Tensor.frac" (Some "ChangePrefixMatcher") false false (bare None);
  R "torch.Tensor.frac_" (Some "ChangePrefixMatcher") false false (bare None);
  R "torch.Tensor.frexp" (Some "ChangePrefixMatcher") false false (bare None);
  R "torch.Tensor.gather" (Some "ChangePrefixMatcher") false false (bare None);
  R "torch.Tensor.gcd" (Some "ChangePrefixMatcher") false false (bare None);
  R "torch.Tensor.gcd_" (Some "ChangePrefixMatcher") false false (bare None);
  R "torch.Tensor.ge" (Some "ChangePrefixMatcher") false false (bare None);
  R "torch.Tensor.ge_" (Some "TensorInplaceReserveTypeMatcher") false false (MkEntry ["other"] [] 1 [] [("other", TName "y")] [] (Some "paddle.Tensor.greater_equal_"));
  R "torch.Tensor.geometric_" (Some "ChangePrefixMatcher") false false (bare None);
  R "torch.Tensor.geqrf" None false false (bare None);
  R "torch.Tensor.ger" (Some "GenericMatcher") false false (MkEntry ["vec2"] [] 1 [] [("vec2", TName "y")] [] (Some "paddle.Tensor.outer"));
  R "torch.Tensor.get_device" (Some "ChangePrefixMatcher") false false (bare None);
  R "torch.Tensor.greater" (Some "ChangePrefixMatcher") false false (bare None);
  R "torch.Tensor.greater_equal" (Some "ChangePrefixMatcher") false false (bare None);
  R "torch.Tensor.gt" (Some "ChangePrefixMatcher") false false (bare None);
  R "torch.Tensor.gt_" (Some "TensorInplaceReserveTypeMatcher") false false (MkEntry ["other"] [] 1 [] [("other", TName "y")] [] (Some "paddle.Tensor.greater_than_"));
  R "torch.Tensor.half" (Some "ChangePrefixMatcher") false false (bare None);
  R "torch.Tensor.hardshrink" (Some "TensorFunc2PaddleFunc") false false (MkEntry ["lambd"] [] 0 [] [("lambd", TName "threshold")] [] (Some "paddle.nn.functional.hardshrink"));
  R "torch.Tensor.heaviside" (Some "GenericMatcher") false false (MkEntry ["values"] [] 1 [] [("values", TName "y")] [] (Some "paddle.Tensor.heaviside"));
  R "torch.Tensor.histc" (Some "HistcMatcher") false false (MkEntry ["bins"; "min"; "max"] [] 0 [] [] [] (Some "paddle.Tensor.histogram"));
  R "torch.Tensor.histogram" (Some "HistogramMatcher") false false (MkEntry ["bins"; "*"; "range"; "weight"; "density"] [] 1 [] [("range", TList ["min"; "max"])] [] (Some "paddle.Tensor.histogram"));
  R "torch.Tensor.hsplit" (Some "GenericMatcher") false false (MkEntry ["indices"] ["sections"] 1 [] [("indices", TName "num_or_indices"); ("sections", TName "num_or_indices")] [] (Some "paddle.Tensor.hsplit"));
  R "torch.Tensor.hypot" (Some "ChangePrefixMatcher") false false (bare None);
  R "torch.Tensor.hypot_" (Some "ChangePrefixMatcher") false false (bare None);
  R "torch.Tensor.i0" (Some "ChangePrefixMatcher") false false (bare None);
  R "torch.Tensor.i0_" (Some "ChangePrefixMatcher") false false (bare None);
  R "torch.Tensor.igamma" (Some "GenericMatcher") false false (MkEntry ["other"] [] 1 [] [("other", TName "y")] [] (Some "paddle.Tensor.gammainc"));
  R "torch.Tensor.igamma_" (Some "GenericMatcher") false false (MkEntry ["other"] [] 1 [] [("other", TName "y")] [] (Some "paddle.Tensor.gammainc_"));
  R "torch.Tensor.igammac" (Some "GenericMatcher") false false (MkEntry ["other"] [] 1 [] [("other", TName "y")] [] (Some "paddle.Tensor.gammaincc"));
  R "torch.Tensor.igammac_" (Some "GenericMatcher") false false (MkEntry ["other"] [] 1 [] [("other", TName "y")] [] (Some "paddle.Tensor.gammaincc_"));
  R "torch.Tensor.index_add" (Some "ChangePrefixMatcher") false false (bare None);
  R "torch.Tensor.index_add_" (Some "ChangePrefixMatcher") false false (bare None);
  R "torch.Tensor.index_copy" None false false (bare None);
  R "torch.Tensor.index_copy_" (Some "ChangePrefixMatcher") false false (bare None);
  R "torch.Tensor.index_fill" (Some "ChangePrefixMatcher") false false (bare None);
  R "torch.Tensor.index_fill_" (Some "ChangePrefixMatcher") false false (bare None);
  R "torch.Tensor.index_put" (Some "ChangePrefixMatcher") false false (bare None);
  R "torch.Tensor.index_put_" (Some "ChangePrefixMatcher") false false (bare None);
  R "torch.Tensor.index_reduce" None false false (bare None);
  R "torch.Tensor.index_reduce_" None false false (bare None);
  R "torch.Tensor.index_select" (Some "ChangePrefixMatcher") false false (bare None);
  R "torch.Tensor.indices" (Some "ChangePrefixMatcher") false false (bare None);
  R "torch.Tensor.inner" (Some "ChangePrefixMatcher") false false (bare None);
  R "torch.Tensor.int" (Some "ChangePrefixMatcher") false false (bare None);
  R "torch.Tensor.int_repr" None false false (bare None);
  R "torch.Tensor.inverse" (Some "ChangePrefixMatcher") false false (bare None);
  R "torch.Tensor.is_coalesced" (Some "ChangePrefixMatcher") false false (bare None);
  R "torch.Tensor.is_complex" (Some "ChangePrefixMatcher") false false (bare None);
  R "torch.Tensor.is_conj" None false false (bare None);
  R "torch.Tensor.is_contiguous" (Some "ChangePrefixMatcher") false false (bare None);
  R "torch.Tensor.is_floating_point" (Some "ChangePrefixMatcher") false false (bare None);
  R "torch.Tensor.is_inference" (Some "Func2Attribute") false false (bare (Some "paddle.Tensor.stop_gradient"));
  R "torch.Tensor.is_pinned" (Some "Is_PinnedMatcher") false false (bare None);
  R "torch.Tensor.is_set_to" None false false (bare None);
  R "torch.Tensor.is_shared" None false false (bare None);
  R "torch.Tensor.is_signed" (Some "TensorIsSignedMatcher") false false (bare None);
  R "torch.Tensor.isclose" (Some "ChangePrefixMatcher") false false (bare None);
  R "torch.Tensor.isfinite" (Some "ChangePrefixMatcher") false false (bare None);
  R "torch.Tensor.isinf" (Some "ChangePrefixMatcher") false false (bare None);
  R "torch.Tensor.isnan" (Some "ChangePrefixMatcher") false false (bare None);
  R "torch.Tensor.isneginf" (Some "ChangePrefixMatcher") false false (bare None);
  R "torch.Tensor.isposinf" (Some "ChangePrefixMatcher") false false (bare None);
  R "torch.Tensor.isreal" (Some "ChangePrefixMatcher") false false (bare None)].

Definition api_mapping_3 : list row := [
  R "torch.Tensor.istft" (Some "ChangePrefixMatcher") false false (bare None);
  R "torch.Tensor.item" (Some "ChangePrefixMatcher") false false (bare None);
  R "torch.Tensor.kron" (Some "ChangePrefixMatcher") false false (bare None);
  R "torch.Tensor.kthvalue" (Some "ChangePrefixMatcher") false false (bare None);
  R "torch.Tensor.lcm" (Some "ChangePrefixMatcher") false false (bare None);
  R "torch.Tensor.lcm_" (Some "ChangePrefixMatcher") false false (bare None);
  R "torch.Tensor.ldexp" (Some "ChangePrefixMatcher") false false (bare None);
  R "torch.Tensor.ldexp_" (Some "ChangePrefixMatcher") false false (bare None);
  R "torch.Tensor.le" (Some "ChangePrefixMatcher") false false (bare None);
  R "torch.Tensor.le_" (Some "TensorInplaceReserveTypeMatcher") false false (MkEntry ["other"] [] 1 [] [("other", TName "y")] [] (Some "paddle.Tensor.less_equal_"));
  R "torch.Tensor.lerp" (Some "ChangePrefixMatcher") false false (bare None);
  R "torch.Tensor.lerp_" (Some "ChangePrefixMatcher") false false (bare None);
  R "torch.Tensor.less" (Some "ChangePrefixMatcher") false false (bare None);
  R "torch.Tensor.less_equal" (Some "ChangePrefixMatcher") false false (bare None);
  R "torch.Tensor.lgamma" (Some "ChangePrefixMatcher") false false (bare None);
  R "torch.Tensor.lgamma_" (Some "ChangePrefixMatcher") false false (bare None);
  R "torch.Tensor.log" (Some "ChangePrefixMatcher") false false (bare None);
  R "torch.Tensor.log10" (Some "ChangePrefixMatcher") false false (bare None);
  R "torch.Tensor.log10_" (Some "ChangePrefixMatcher") false false (bare None);
  R "torch.Tensor.log1p" (Some "ChangePrefixMatcher") false false (bare None);
  R "torch.Tensor.log1p_" (Some "ChangePrefixMatcher") false false (bare None);
  R "torch.Tensor.log2" (Some "ChangePrefixMatcher") false false (bare None);
  R "torch.Tensor.log2_" (Some "ChangePrefixMatcher") false false (bare None);
  R "torch.Tensor.log_" (Some "ChangePrefixMatcher") false false (bare None);
  R "torch.Tensor.log_normal_" (Some "ChangePrefixMatcher") false false (bare None);
  R "torch.Tensor.logaddexp" (Some "ChangePrefixMatcher") false false (bare None);
  R "torch.Tensor.logaddexp2" (Some "LogAddExp2Matcher") false false (MkEntry ["other"] [] 1 [] [] [] None);
  R "torch.Tensor.logcumsumexp" (Some "ChangePrefixMatcher") false false (bare None);
  R "torch.Tensor.logdet" (Some "LogDetMatcher") false false (bare None);
  R "torch.Tensor.logical_and" (Some "ChangePrefixMatcher") false false (bare None);
  R "torch.Tensor.logical_and_" (Some "TensorInplaceReserveTypeMatcher") false false (MkEntry ["other"] [] 1 [] [("other", TName "y")] [] (Some "paddle.Tensor.logical_and_"));
  R "torch.Tensor.logical_not" (Some "ChangePrefixMatcher") false false (bare None);
  R "torch.Tensor.logical_not_" (Some "TensorInplaceReserveTypeMatcher") false false (bare (Some "paddle.Tensor.logical_not_"));
  R "torch.Tensor.logical_or" (Some "ChangePrefixMatcher") false false (bare None);
  R "torch.Tensor.logical_or_" (Some "TensorInplaceReserveTypeMatcher") false false (MkEntry ["other"] [] 1 [] [("other", TName "y")] [] (Some "paddle.Tensor.logical_or_"));
  R "torch.Tensor.logical_xor" (Some "ChangePrefixMatcher") false false (bare None);
  R "torch.Tensor.logical_xor_" (Some "TensorInplaceReserveTypeMatcher") false false (MkEntry ["other"] [] 1 [] [("other", TName "y")] [] (Some "paddle.Tensor.logical_xor_"));
  R "torch.Tensor.logit" (Some "ChangePrefixMatcher") false false (bare None);
  R "torch.Tensor.logit_" (Some "ChangePrefixMatcher") false false (bare None);
  R "torch.Tensor.logsumexp" (Some "ChangePrefixMatcher") false false (bare None);
  R "torch.Tensor.long" (Some "ChangePrefixMatcher") false false (bare None);
  R "torch.Tensor.lstsq" None false false (bare None);
  R "torch.Tensor.lt" (Some "ChangePrefixMatcher") false false (bare None);
  R "torch.Tensor.lt_" (Some "TensorInplaceReserveTypeMatcher") false false (MkEntry ["other"] [] 1 [] [("other", TName "y")] [] (Some "paddle.Tensor.less_than_"));
  R "torch.Tensor.lu" (Some "ChangePrefixMatcher") false false (bare None);
  R "torch.Tensor.lu_solve" (Some "TensorFunc2PaddleFunc") false false (MkEntry ["LU_data"; "LU_pivots"] [] 0 [] [("LU_data", TName "lu"); ("LU_pivots", TName "pivots")] [] (Some "paddle.linalg.lu_solve"));
  R "torch.Tensor.map_" None false false (bare None);
  R "torch.Tensor.masked_fill" (Some "ChangePrefixMatcher") false false (bare None);
  R "torch.Tensor.masked_fill_" (Some "ChangePrefixMatcher") false false (bare None);
  R "torch.Tensor.masked_scatter" (Some "ChangePrefixMatcher") false false (bare None);
  R "torch.Tensor.masked_scatter_" (Some "ChangePrefixMatcher") false false (bare None);
  R "torch.Tensor.masked_select" (Some "ChangePrefixMatcher") false false (bare None);
  R "torch.Tensor.matmul" (Some "ChangePrefixMatcher") false false (bare None);
  R "torch.Tensor.matrix_exp" (Some "ChangePrefixMatcher") false false (bare None);
  R "torch.Tensor.matrix_power" (Some "ChangePrefixMatcher") false false (bare None);
  R "torch.Tensor.max" (Some "TensorMaxMatcher") false false (MkEntry ["dim"; "keepdim"; "other"] [] 0 [] [("dim", TName "axis"); ("other", TName "y")] [] (Some "paddle.Tensor.max"));
  R "torch.Tensor.maximum" (Some "ChangePrefixMatcher") false false (bare None);
  R "torch.Tensor.mean" (Some "ChangePrefixMatcher") false false (bare None);
  R "torch.Tensor.median" (Some "GenericMatcher") false false (MkEntry ["dim"; "keepdim"] [] 0 ["dim"] [("dim", TName "axis")] [] (Some "paddle.Tensor.median"));
  R "torch.Tensor.min" (Some "TensorMinMatcher") false false (MkEntry ["dim"; "keepdim"; "other"] [] 0 [] [("dim", TName "axis"); ("other", TName "y")] [] (Some "paddle.Tensor.min"));
  R "torch.Tensor.minimum" (Some "ChangePrefixMatcher") false false (bare None);
  R "torch.Tensor.mm" (Some "ChangePrefixMatcher") false false (bare None);
  R "torch.Tensor.mode" (Some "ChangePrefixMatcher") false false (bare None);
  R "torch.Tensor.module_load" None false false (bare None);
  R "torch.Tensor.moveaxis" (Some "ChangePrefixMatcher") false false (bare None);
  R "torch.Tensor.movedim" (Some "ChangePrefixMatcher") false false (bare None);
  R "torch.Tensor.msort" (Some "ChangePrefixMatcher") false false (bare None);
  R "torch.Tensor.mul" (Some "ChangePrefixMatcher") false false (bare None);
  R "torch.Tensor.mul_" (Some "ChangePrefixMatcher") false false (bare None);
  R "torch.Tensor.multinomial" (Some "ChangePrefixMatcher") false false (bare None);
  R "torch.Tensor.multiply" (Some "ChangePrefixMatcher") false false (bare None);
  R "torch.Tensor.multiply_" (Some "ChangePrefixMatcher") false false (bare None);
  R "torch.Tensor.mv" (Some "ChangePrefixMatcher") false false (bare None);
  R "torch.Tensor.mvlgamma" (Some "ChangeAPIMatcher") false false (MkEntry [] [] 1 [] [] [] (Some "paddle.Tensor.multigammaln"));
  R "torch.Tensor.mvlgamma_" (Some "ChangePrefixMatcher") false false (bare None);
  R "torch.Tensor.nan_to_num" (Some "ChangePrefixMatcher") false false (bare None);
  R "torch.Tensor.nan_to_num_" (Some "ChangePrefixMatcher") false false (bare None);
  R "torch.Tensor.nanmean" (Some "ChangePrefixMatcher") false false (bare None);
  R "torch.Tensor.nanmedian" (Some "GenericMatcher") false false (MkEntry ["dim"; "keepdim"] [] 0 ["dim"] [("dim", TName "axis")] [] (Some "paddle.Tensor.nanmedian"));
  R "torch.Tensor.nanquantile" (Some "ChangePrefixMatcher") false false (bare None);
  R "torch.Tensor.nansum" (Some "ChangePrefixMatcher") false false (bare None);
  R "torch.Tensor.narrow" (Some "ChangePrefixMatcher") false false (bare None);
  R "torch.Tensor.narrow_copy" (Some "NarrowCopyMatcher") false false (MkEntry ["dim"; "start"; "length"] [] 3 [] [] [] None);
  R "torch.Tensor.ndimension" (Some "ChangePrefixMatcher") false false (bare None);
  R "torch.Tensor.ne" (Some "ChangePrefixMatcher") false false (bare None);
  R "torch.Tensor.ne_" (Some "TensorInplaceReserveTypeMatcher") false false (MkEntry ["other"] [] 1 [] [("other", TName "y")] [] (Some "paddle.Tensor.not_equal_"));
  R "torch.Tensor.neg" (Some "ChangePrefixMatcher") false false (bare None);
  R "torch.Tensor.neg_" (Some "ChangePrefixMatcher") false false (bare None);
  R "torch.Tensor.negative" (Some "ChangeAPIMatcher") false false (bare (Some "paddle.Tensor.neg"));
  R "torch.Tensor.negative_" (Some "ChangePrefixMatcher") false false (bare None);
  R "torch.Tensor.nelement" (Some "ChangePrefixMatcher") false false (bare None);
  R "torch.Tensor.new_empty" (Some "ChangePrefixMatcher") false false (bare None);
  R "torch.Tensor.new_full" (Some "ChangePrefixMatcher") false false (bare None);
  R "torch.Tensor.new_ones" (Some "ChangePrefixMatcher") false false (bare None);
  R "torch.Tensor.new_tensor" (Some "ChangePrefixMatcher") false false (bare None);
  R "torch.Tensor.new_zeros" (Some "ChangePrefixMatcher") false false (bare None);
  R "torch.Tensor.nextafter" (Some "ChangePrefixMatcher") false false (bare None);
  R "torch.Tensor.nextafter_" None false false (bare None);
  R "torch.Tensor.nonzero" (Some "ChangePrefixMatcher") false false (bare None);
  R "torch.Tensor.norm" (Some "ChangePrefixMatcher") false false (bare None)].

Definition api_mapping_4 : list row := [
  R "torch.Tensor.normal_" (Some "ChangePrefixMatcher") false false (bare None);
  R "torch.Tensor.not_equal" (Some "ChangePrefixMatcher") false false (bare None);
  R "torch.Tensor.numel" (Some "Func2Attribute") false false (bare (Some "paddle.Tensor.size"));
  R "torch.Tensor.numpy" (Some "ChangePrefixMatcher") false false (bare None);
  R "torch.Tensor.orgqr" (Some "GenericMatcher") false false (MkEntry ["input2"] [] 1 [] [("input2", TName "tau")] [] (Some "paddle.Tensor.householder_product"));
  R "torch.Tensor.ormqr" (Some "TensorFunc2PaddleFunc") false false (MkEntry ["input2"; "input3"; "left"; "transpose"] [] 2 [] [("input2", TName "tau"); ("input3", TName "y")] [] (Some "paddle.linalg.ormqr"));
  R "torch.Tensor.outer" (Some "ChangePrefixMatcher") false false (bare None);
  R "torch.Tensor.permute" (Some "ChangePrefixMatcher") false false (bare None);
  R "torch.Tensor.pin_memory" (Some "ChangePrefixMatcher") false false (bare None);
  R "torch.Tensor.pinverse" (Some "ChangePrefixMatcher") false false (bare None);
  R "torch.Tensor.polygamma" (Some "ChangePrefixMatcher") false false (bare None);
  R "torch.Tensor.polygamma_" (Some "ChangePrefixMatcher") false false (bare None);
  R "torch.Tensor.positive" (Some "ChangePrefixMatcher") false false (bare None);
  R "torch.Tensor.pow" (Some "ChangePrefixMatcher") false false (bare None);
  R "torch.Tensor.pow_" (Some "ChangePrefixMatcher") false false (bare None);
  R "torch.Tensor.prod" (Some "ChangePrefixMatcher") false false (bare None);
  R "torch.Tensor.put_" None false false (bare None);
  R "torch.Tensor.q_per_channel_axis" None false false (bare None);
  R "torch.Tensor.q_per_channel_scales" None false false (bare None);
  R "torch.Tensor.q_per_channel_zero_points" None false false (bare None);
  R "torch.Tensor.q_scale" None false false (bare None);
  R "torch.Tensor.q_zero_point" None false false (bare None);
  R "torch.Tensor.qr" (Some "QrMatcher") false false (MkEntry ["some"] [] 0 [] [] [] (Some "paddle.Tensor.qr"));
  R "torch.Tensor.qscheme" None false false (bare None);
  R "torch.Tensor.quantile" (Some "ChangePrefixMatcher") false false (bare None);
  R "torch.Tensor.rad2deg" (Some "ChangePrefixMatcher") false false (bare None);
  R "torch.Tensor.random_" (Some "ChangePrefixMatcher") false false (bare None);
  R "torch.Tensor.ravel" (Some "ChangePrefixMatcher") false false (bare None);
  R "torch.Tensor.reciprocal" (Some "ChangePrefixMatcher") false false (bare None);
  R "torch.Tensor.reciprocal_" (Some "ChangePrefixMatcher") false false (bare None);
  R "torch.Tensor.record_stream" None false false (bare None);
  R "torch.Tensor.refine_names" None false false (bare None);
  R "torch.Tensor.register_hook" (Some "ChangePrefixMatcher") false false (bare None);
  R "torch.Tensor.register_post_accumulate_grad_hook" None false false (bare None);
  R "torch.Tensor.remainder" (Some "ChangePrefixMatcher") false false (bare None);
  R "torch.Tensor.remainder_" (Some "ChangePrefixMatcher") false false (bare None);
  R "torch.Tensor.rename" (Some "TensorRenameMatcher") false false (MkEntry ["*names"; "**rename_map"] [] 0 [] [] [] None);
  R "torch.Tensor.rename_" None false false (bare None);
  R "torch.Tensor.renorm" (Some "ChangePrefixMatcher") false false (bare None);
  R "torch.Tensor.renorm_" (Some "ChangePrefixMatcher") false false (bare None);
  R "torch.Tensor.repeat" (Some "ChangePrefixMatcher") false false (bare None);
  R "torch.Tensor.repeat_interleave" (Some "ChangePrefixMatcher") false false (bare None);
  R "torch.Tensor.requires_grad_" (Some "ChangePrefixMatcher") false false (bare None);
  R "torch.Tensor.reshape" (Some "ChangePrefixMatcher") false false (bare None);
  R "torch.Tensor.reshape_as" (Some "ChangePrefixMatcher") false false (bare None);
  R "torch.Tensor.resize_" (Some "ChangePrefixMatcher") false false (bare None);
  R "torch.Tensor.resize_as_" (Some "ChangePrefixMatcher") false false (bare None);
  R "torch.Tensor.resolve_conj" None false false (bare None);
  R "torch.Tensor.resolve_neg" None false false (bare None);
  R "torch.Tensor.retain_grad" (Some "ChangePrefixMatcher") false false (bare None);
  R "torch.Tensor.roll" (Some "ChangePrefixMatcher") false false (bare None);
  R "torch.Tensor.rot90" (Some "ChangePrefixMatcher") false false (bare None);
  R "torch.Tensor.round" (Some "ChangePrefixMatcher") false false (bare None);
  R "torch.Tensor.round_" (Some "ChangePrefixMatcher") false false (bare None);
  R "torch.Tensor.row_indices" None false false (bare None);
  R "torch.Tensor.rsqrt" (Some "ChangePrefixMatcher") false false (bare None);
  R "torch.Tensor.rsqrt_" (Some "ChangePrefixMatcher") false false (bare None);
  R "torch.Tensor.scatter" (Some "ChangePrefixMatcher") false false (bare None);
  R "torch.Tensor.scatter_" (Some "ChangePrefixMatcher") false false (bare None);
  R "torch.Tensor.scatter_add" (Some "ChangePrefixMatcher") false false (bare None);
  R "torch.Tensor.scatter_add_" (Some "ChangePrefixMatcher") false false (bare None);
  R "torch.Tensor.scatter_reduce" (Some "ChangePrefixMatcher") false false (bare None);
  R "torch.Tensor.scatter_reduce_" (Some "ChangePrefixMatcher") false false (bare None);
  R "torch.Tensor.select" (Some "SelectMatcher") false false (MkEntry ["dim"; "index"] [] 2 [] [] [] None);
  R "torch.Tensor.select_scatter" (Some "ChangePrefixMatcher") false false (bare None);
  R "torch.Tensor.set_" (Some "TensorSetMatcher") false false (MkEntry ["source"; "storage_offset"; "size"; "stride"] [] 0 [] [] [] (Some "paddle.Tensor.set_"));
  R "torch.Tensor.sgn" (Some "ChangePrefixMatcher") false false (bare None);
  R "torch.Tensor.sgn_" None false false (bare None);
  R "torch.Tensor.share_memory_" None false false (bare None);
  R "torch.Tensor.short" (Some "ChangePrefixMatcher") false false (bare None);
  R "torch.Tensor.sigmoid" (Some "ChangePrefixMatcher") false false (bare None);
  R "torch.Tensor.sigmoid_" (Some "ChangePrefixMatcher") false false (bare None);
  R "torch.Tensor.sign" (Some "ChangePrefixMatcher") false false (bare None);
  R "torch.Tensor.sign_" (Some "ChangePrefixMatcher") false false (bare None);
  R "torch.Tensor.signbit" (Some "ChangePrefixMatcher") false false (bare None);
  R "torch.Tensor.sin" (Some "ChangePrefixMatcher") false false (bare None);
  R "torch.Tensor.sin_" (Some "ChangePrefixMatcher") false false (bare None);
  R "torch.Tensor.sinc" (Some "ChangePrefixMatcher") false false (bare None);
  R "torch.Tensor.sinc_" (Some "ChangePrefixMatcher") false false (bare None);
  R "torch.Tensor.sinh" (Some "ChangePrefixMatcher") false false (bare None);
  R "torch.Tensor.sinh_" (Some "ChangePrefixMatcher") false false (bare None);
  R "torch.Tensor.size" (Some "ChangePrefixMatcher") false false (bare None);
  R "torch.Tensor.slice_scatter" (Some "ChangePrefixMatcher") false false (bare None);
  R "torch.Tensor.slogdet" (Some "SLogDetMatcher") false false (bare (Some "paddle.linalg.slogdet"));
  R "torch.Tensor.smm" None false false (bare None);
  R "torch.Tensor.softmax" (Some "ChangePrefixMatcher") false false (bare None);
  R "torch.Tensor.sort" (Some "SortMatcher") false false (MkEntry ["dim"; "descending"; "*"; "stable"; "dim"; "descending"] [] 0 [] [("dim", TName "axis")] [] (Some "paddle.Tensor.sort"));
  R "torch.Tensor.sparse_dim" (Some "ChangePrefixMatcher") false false (bare None);
  R "torch.Tensor.sparse_mask" (Some "ChangePrefixMatcher") false false (bare None);
  R "torch.Tensor.sparse_resize_" None false false (bare None);
  R "torch.Tensor.sparse_resize_and_clear_" None false false (bare None);
  R "torch.Tensor.split" (Some "TensorSplitMatcher") false false (MkEntry ["split_size"; "dim"] [] 1 [] [("split_size", TName "num_or_sections"); ("dim", TName "axis")] [] (Some "paddle.Tensor.split"));
  R "torch.Tensor.split_with_sizes" (Some "ChangePrefixMatcher") false false (bare None);
  R "torch.Tensor.sqrt" (Some "ChangePrefixMatcher") false false (bare None);
  R "torch.Tensor.sqrt_" (Some "ChangePrefixMatcher") false false (bare None);
  R "torch.Tensor.square" (Some "ChangePrefixMatcher") false false (bare None);
  R "torch.Tensor.square_" (Some "ChangePrefixMatcher") false false (bare None);
  R "torch.Tensor.squeeze" (Some "ChangePrefixMatcher") false false (bare None);
  R "torch.Tensor.squeeze_" (Some "ChangePrefixMatcher") false false (bare None);
  R "torch.Tensor.sspaddmm" None false false (bare None)].

Definition api_mapping_5 : list row := [
  R "torch.Tensor.std" (Some "ChangePrefixMatcher") false false (bare None);
  R "torch.Tensor.stft" (Some "TensorStftMatcher") false false (MkEntry ["n_fft"; "hop_length"; "win_length"; "window"; "center"; "pad_mode"; "normalized"; "onesided"; "return_complex"] [] 1 [] [] [] (Some "paddle.Tensor.stft"));
  R "torch.Tensor.storage" None false false (bare None);
  R "torch.Tensor.storage_offset" None false false (bare None);
  R "torch.Tensor.storage_type" None false false (bare None);
  R "torch.Tensor.stride" (Some "ChangePrefixMatcher") false false (bare None);
  R "torch.Tensor.sub" (Some "ChangePrefixMatcher") false false (bare None);
  R "torch.Tensor.sub_" (Some "ChangePrefixMatcher") false false (bare None);
  R "torch.Tensor.subtract" (Some "ChangePrefixMatcher") false false (bare None);
  R "torch.Tensor.subtract_" (Some "ChangePrefixMatcher") false false (bare None);
  R "torch.Tensor.sum" (Some "ChangePrefixMatcher") false false (bare None);
  R "torch.Tensor.sum_to_size" None false false (bare None);
  R "torch.Tensor.svd" (Some "SvdMatcher") false false (MkEntry ["some"; "compute_uv"] [] 0 ["compute_uv"] [] [] (Some "paddle.linalg.svd"));
  R "torch.Tensor.swapaxes" (Some "ChangePrefixMatcher") false false (bare None);
  R "torch.Tensor.swapdims" (Some "ChangePrefixMatcher") false false (bare None);
  R "torch.Tensor.symeig" (Some "SymeigMatcher") false false (MkEntry ["eigenvectors"; "upper"] [] 0 [] [("upper", TName "UPLO")] [] (Some "paddle.linalg.eigh"));
  R "torch.Tensor.t" (Some "ChangePrefixMatcher") false false (bare None);
  R "torch.Tensor.t_" (Some "ChangePrefixMatcher") false false (bare None);
  R "torch.Tensor.take" (Some "ChangePrefixMatcher") false false (bare None);
  R "torch.Tensor.take_along_dim" (Some "ChangePrefixMatcher") false false (bare None);
  R "torch.Tensor.tan" (Some "ChangePrefixMatcher") false false (bare None);
  R "torch.Tensor.tan_" (Some "ChangePrefixMatcher") false false (bare None);
  R "torch.Tensor.tanh" (Some "ChangePrefixMatcher") false false (bare None);
  R "torch.Tensor.tanh_" (Some "ChangePrefixMatcher") false false (bare None);
  R "torch.Tensor.tensor_split" (Some "ChangePrefixMatcher") false false (bare None);
  R "torch.Tensor.tile" (Some "ChangePrefixMatcher") false false (bare None);
  R "torch.Tensor.to" (Some "ChangePrefixMatcher") false false (bare None);
  R "torch.Tensor.to_dense" (Some "ChangePrefixMatcher") false false (bare None);
  R "torch.Tensor.to_mkldnn" None false false (bare None);
  R "torch.Tensor.to_sparse" (Some "ChangePrefixMatcher") false false (bare None);
  R "torch.Tensor.to_sparse_bsc" None false false (bare None);
  R "torch.Tensor.to_sparse_bsr" None false false (bare None);
  R "torch.Tensor.to_sparse_coo" (Some "TensorToSparseCooMatcher") false false (bare (Some "paddle.Tensor.to_sparse_coo"));
  R "torch.Tensor.to_sparse_csc" None false false (bare None);
  R "torch.Tensor.to_sparse_csr" (Some "GenericMatcher") false false (MkEntry ["dense_dim"] [] 0 ["dense_dim"] [] [] (Some "paddle.Tensor.to_sparse_csr"));
  R "torch.Tensor.tolist" (Some "ChangePrefixMatcher") false false (bare None);
  R "torch.Tensor.topk" (Some "ChangePrefixMatcher") false false (bare None);
  R "torch.Tensor.trace" (Some "ChangePrefixMatcher") false false (bare None);
  R "torch.Tensor.transpose" (Some "ChangePrefixMatcher") false false (bare None);
  R "torch.Tensor.transpose_" (Some "ChangePrefixMatcher") false false (bare None);
  R "torch.Tensor.triangular_solve" (Some "TensorTriangularSolveMatcher") false false (MkEntry ["A"; "upper"; "transpose"; "unitriangular"] [] 1 [] [] [] (Some "paddle.linalg.triangular_solve"));
  R "torch.Tensor.tril" (Some "ChangePrefixMatcher") false false (bare None);
  R "torch.Tensor.tril_" (Some "ChangePrefixMatcher") false false (bare None);
  R "torch.Tensor.triu" (Some "ChangePrefixMatcher") false false (bare None);
  R "torch.Tensor.triu_" (Some "ChangePrefixMatcher") false false (bare None);
  R "torch.Tensor.true_divide" (Some "ChangePrefixMatcher") false false (bare None);
  R "torch.Tensor.true_divide_" (Some "ChangePrefixMatcher") false false (bare None);
  R "torch.Tensor.trunc" (Some "ChangePrefixMatcher") false false (bare None);
  R "torch.Tensor.trunc_" (Some "ChangePrefixMatcher") false false (bare None);
  R "torch.Tensor.type" (Some "TensorTypeMatcher") false false (MkEntry ["dtype"; "non_blocking"; "**kwargs"] [] 0 [] [] [] (Some "paddle.Tensor.astype"));
  R "torch.Tensor.type_as" (Some "ChangePrefixMatcher") false false (bare None);
  R "torch.Tensor.unbind" (Some "ChangePrefixMatcher") false false (bare None);
  R "torch.Tensor.unflatten" (Some "ChangePrefixMatcher") false false (bare None);
  R "torch.Tensor.unfold" (Some "ChangePrefixMatcher") false false (bare None);
  R "torch.Tensor.uniform_" (Some "ChangePrefixMatcher") false false (bare None);
  R "torch.Tensor.unique" (Some "ChangePrefixMatcher") false false (bare None);
  R "torch.Tensor.unique_consecutive" (Some "ChangePrefixMatcher") false false (bare None);
  R "torch.Tensor.unsqueeze" (Some "ChangePrefixMatcher") false false (bare None);
  R "torch.Tensor.unsqueeze_" (Some "ChangePrefixMatcher") false false (bare None);
  R "torch.Tensor.untyped_storage" None false false (bare None);
  R "torch.Tensor.values" (Some "ChangePrefixMatcher") false false (bare None);
  R "torch.Tensor.var" (Some "ChangePrefixMatcher") false false (bare None);
  R "torch.Tensor.vdot" (Some "GenericMatcher") false false (MkEntry ["other"] [] 1 [] [("other", TName "y")] [] (Some "paddle.Tensor.dot"));
  R "torch.Tensor.view" (Some "ChangePrefixMatcher") false false (bare None);
  R "torch.Tensor.view_as" (Some "ChangePrefixMatcher") false false (bare None);
  R "torch.Tensor.vsplit" (Some "GenericMatcher") false false (MkEntry ["indices"] ["sections"] 1 [] [("indices", TName "num_or_indices"); ("sections", TName "num_or_indices")] [] (Some "paddle.Tensor.vsplit"));
  R "torch.Tensor.where" (Some "TensorWhereMatcher") false false (MkEntry ["condition"; "other"] [] 2 [] [("other", TName "y")] [] (Some "paddle.where"));
  R "torch.Tensor.xlogy" (Some "XLogYMatcher") false false (MkEntry ["other"] [] 1 [] [] [] None);
  R "torch.Tensor.xlogy_" (Some "XLogY_Matcher") false false (MkEntry ["other"] [] 1 [] [] [] None);
  R "torch.Tensor.zero_" (Some "ChangePrefixMatcher") false false (bare None);
  R "torch.__version__.split" (Some "ChangePrefixMatcher") false false (bare None);
  R "torch._assert" (Some "ChangePrefixMatcher") false false (bare None);
  R "torch._foreach_abs" (Some "ForeachMatcher") false false (MkEntry ["self"] [] 1 [] [] [] (Some "paddle.abs"));
  R "torch._foreach_abs_" (Some "ForeachMatcher") false false (MkEntry ["self"] [] 1 [] [] [] (Some "paddle.abs_"));
  R "torch._foreach_acos" (Some "ForeachMatcher") false false (MkEntry ["self"] [] 1 [] [] [] (Some "paddle.acos"));
  R "torch._foreach_acos_" (Some "ForeachMatcher") false false (MkEntry ["self"] [] 1 [] [] [] (Some "paddle.acos_"));
  R "torch._foreach_asin" (Some "ForeachMatcher") false false (MkEntry ["self"] [] 1 [] [] [] (Some "paddle.asin"));
  R "torch._foreach_asin_" (Some "ForeachMatcher") false false (MkEntry ["self"] [] 1 [] [] [] (Some "paddle.asin_"));
  R "torch._foreach_atan" (Some "ForeachMatcher") false false (MkEntry ["self"] [] 1 [] [] [] (Some "paddle.atan"));
  R "torch._foreach_atan_" (Some "ForeachMatcher") false false (MkEntry ["self"] [] 1 [] [] [] (Some "paddle.atan_"));
  R "torch._foreach_ceil" (Some "ForeachMatcher") false false (MkEntry ["self"] [] 1 [] [] [] (Some "paddle.ceil"));
  R "torch._foreach_ceil_" (Some "ForeachTensorMatcher") false false (MkEntry ["self"] [] 1 [] [] [] (Some "paddle.Tensor.ceil_"));
  R "torch._foreach_cos" (Some "ForeachMatcher") false false (MkEntry ["self"] [] 1 [] [] [] (Some "paddle.cos"));
  R "torch._foreach_cos_" (Some "ForeachMatcher") false false (MkEntry ["self"] [] 1 [] [] [] (Some "paddle.cos_"));
  R "torch._foreach_cosh" (Some "ForeachMatcher") false false (MkEntry ["self"] [] 1 [] [] [] (Some "paddle.cosh"));
  R "torch._foreach_cosh_" (Some "ForeachMatcher") false false (MkEntry ["self"] [] 1 [] [] [] (Some "paddle.cosh_"));
  R "torch._foreach_erf" (Some "ForeachMatcher") false false (MkEntry ["self"] [] 1 [] [] [] (Some "paddle.erf"));
  R "torch._foreach_erf_" (Some "ForeachMatcher") false false (MkEntry ["self"] [] 1 [] [] [] (Some "paddle.erf_"));
  R "torch._foreach_erfc" (Some "ForeachErfcMatcher") false false (MkEntry ["self"] [] 1 [] [] [] None);
  R "torch._foreach_erfc_" (Some "ForeachErfc_Matcher") false false (MkEntry ["self"] [] 1 [] [] [] None);
  R "torch._foreach_exp" (Some "ForeachMatcher") false false (MkEntry ["self"] [] 1 [] [] [] (Some "paddle.exp"));
  R "torch._foreach_exp_" (Some "ForeachTensorMatcher") false false (MkEntry ["self"] [] 1 [] [] [] (Some "paddle.Tensor.exp_"));
  R "torch._foreach_expm1" (Some "ForeachMatcher") false false (MkEntry ["self"] [] 1 [] [] [] (Some "paddle.expm1"));
  R "torch._foreach_expm1_" (Some "ForeachMatcher") false false (MkEntry ["self"] [] 1 [] [] [] (Some "paddle.expm1_"));
  R "torch._foreach_floor" (Some "ForeachMatcher") false false (MkEntry ["self"] [] 1 [] [] [] (Some "paddle.floor"));
  R "torch._foreach_floor_" (Some "ForeachTensorMatcher") false false (MkEntry ["self"] [] 1 [] [] [] (Some "paddle.Tensor.floor_"));
  R "torch._foreach_frac" (Some "ForeachMatcher") false false (MkEntry ["self"] [] 1 [] [] [] (Some "paddle.frac"));
  R "torch._foreach_frac_" (Some "ForeachMatcher") false false (MkEntry ["self"] [] 1 [] [] [] (Some "paddle.frac_"));
  R "torch._foreach_lgamma" (Some "ForeachMatcher") false false (MkEntry ["self"] [] 1 [] [] [] (Some "paddle.lgamma"));
  R "torch._foreach_lgamma_" (Some "ForeachMatcher") false false (MkEntry ["self"] [] 1 [] [] [] (Some "paddle.lgamma_"))].

Definition api_mapping_6 : list row := [
  R "torch._foreach_log" (Some "ForeachMatcher") false false (MkEntry ["self"] [] 1 [] [] [] (Some "paddle.log"));
  R "torch._foreach_log10" (Some "ForeachMatcher") false false (MkEntry ["self"] [] 1 [] [] [] (Some "paddle.log10"));
  R "torch._foreach_log10_" (Some "ForeachMatcher") false false (MkEntry ["self"] [] 1 [] [] [] (Some "paddle.log10_"));
  R "torch._foreach_log1p" (Some "ForeachMatcher") false false (MkEntry ["self"] [] 1 [] [] [] (Some "paddle.log1p"));
  R "torch._foreach_log1p_" (Some "ForeachMatcher") false false (MkEntry ["self"] [] 1 [] [] [] (Some "paddle.log1p_"));
  R "torch._foreach_log2" (Some "ForeachMatcher") false false (MkEntry ["self"] [] 1 [] [] [] (Some "paddle.log2"));
  R "torch._foreach_log2_" (Some "ForeachMatcher") false false (MkEntry ["self"] [] 1 [] [] [] (Some "paddle.log2_"));
  R "torch._foreach_log_" (Some "ForeachMatcher") false false (MkEntry ["self"] [] 1 [] [] [] (Some "paddle.log_"));
  R "torch._foreach_neg" (Some "ForeachMatcher") false false (MkEntry ["self"] [] 1 [] [] [] (Some "paddle.neg"));
  R "torch._foreach_neg_" (Some "ForeachMatcher") false false (MkEntry ["self"] [] 1 [] [] [] (Some "paddle.neg_"));
  R "torch._foreach_reciprocal" (Some "ForeachMatcher") false false (MkEntry ["self"] [] 1 [] [] [] (Some "paddle.reciprocal"));
  R "torch._foreach_reciprocal_" (Some "ForeachTensorMatcher") false false (MkEntry ["self"] [] 1 [] [] [] (Some "paddle.Tensor.reciprocal_"));
  R "torch._foreach_round" (Some "ForeachMatcher") false false (MkEntry ["self"] [] 1 [] [] [] (Some "paddle.round"));
  R "torch._foreach_round_" (Some "ForeachTensorMatcher") false false (MkEntry ["self"] [] 1 [] [] [] (Some "paddle.Tensor.round_"));
  R "torch._foreach_sigmoid" (Some "ForeachTensorMatcher") false false (MkEntry ["self"] [] 1 [] [] [] (Some "paddle.Tensor.sigmoid"));
  R "torch._foreach_sigmoid_" (Some "ForeachTensorMatcher") false false (MkEntry ["self"] [] 1 [] [] [] (Some "paddle.Tensor.sigmoid_"));
  R "torch._foreach_sin" (Some "ForeachMatcher") false false (MkEntry ["self"] [] 1 [] [] [] (Some "paddle.sin"));
  R "torch._foreach_sin_" (Some "ForeachMatcher") false false (MkEntry ["self"] [] 1 [] [] [] (Some "paddle.sin_"));
  R "torch._foreach_sinh" (Some "ForeachMatcher") false false (MkEntry ["self"] [] 1 [] [] [] (Some "paddle.sinh"));
  R "torch._foreach_sinh_" (Some "ForeachMatcher") false false (MkEntry ["self"] [] 1 [] [] [] (Some "paddle.sinh_"));
  R "torch._foreach_sqrt" (Some "ForeachMatcher") false false (MkEntry ["self"] [] 1 [] [] [] (Some "paddle.sqrt"));
  R "torch._foreach_sqrt_" (Some "ForeachTensorMatcher") false false (MkEntry ["self"] [] 1 [] [] [] (Some "paddle.Tensor.sqrt_"));
  R "torch._foreach_tan" (Some "ForeachMatcher") false false (MkEntry ["self"] [] 1 [] [] [] (Some "paddle.tan"));
  R "torch._foreach_tan_" (Some "ForeachMatcher") false false (MkEntry ["self"] [] 1 [] [] [] (Some "paddle.tan_"));
  R "torch._foreach_trunc" (Some "ForeachMatcher") false false (MkEntry ["self"] [] 1 [] [] [] (Some "paddle.trunc"));
  R "torch._foreach_trunc_" (Some "ForeachMatcher") false false (MkEntry ["self"] [] 1 [] [] [] (Some "paddle.trunc_"));
  R "torch._foreach_zero_" (Some "ForeachTensorMatcher") false false (MkEntry ["self"] [] 1 [] [] [] (Some "paddle.Tensor.zero_"));
  R "torch.abs" (Some "ChangePrefixMatcher") false false (bare None);
  R "torch.abs_" (Some "ChangePrefixMatcher") false false (bare None);
  R "torch.absolute" (Some "ChangePrefixMatcher") false false (bare None);
  R "torch.acos" (Some "ChangePrefixMatcher") false false (bare None);
  R "torch.acos_" (Some "ChangePrefixMatcher") false false (bare None);
  R "torch.acosh" (Some "ChangePrefixMatcher") false false (bare None);
  R "torch.acosh_" (Some "ChangePrefixMatcher") false false (bare None);
  R "torch.adaptive_avg_pool1d" (Some "ChangePrefixMatcher") false false (bare None);
  R "torch.adaptive_max_pool1d" None false false (bare None);
  R "torch.add" (Some "ChangePrefixMatcher") false false (bare None);
  R "torch.addbmm" (Some "AddBmmMatcher") false false (MkEntry ["input"; "batch1"; "batch2"; "*"; "beta"; "alpha"; "out"] [] 3 [] [] [] None);
  R "torch.addcdiv" (Some "AddCDivMatcher") false false (MkEntry ["input"; "tensor1"; "tensor2"; "*"; "value"; "out"] [] 3 [] [] [] None);
  R "torch.addcmul" (Some "AddCMulMatcher") false false (MkEntry ["input"; "tensor1"; "tensor2"; "*"; "value"; "out"] [] 3 [] [] [] None);
  R "torch.addmm" (Some "ChangePrefixMatcher") false false (bare None);
  R "torch.addmv" (Some "ChangePrefixMatcher") false false (bare None);
  R "torch.addr" (Some "ChangePrefixMatcher") false false (bare None);
  R "torch.adjoint" (Some "AdjointMatcher") false false (MkEntry ["input"] [] 1 [] [] [] None);
  R "torch.all" (Some "ChangePrefixMatcher") false false (bare None);
  R "torch.allclose" (Some "ChangeAPIMatcher") false false (bare (Some "paddle.compat.allclose"));
  R "torch.alpha_dropout" (Some "GenericMatcher") false false (MkEntry ["input"; "p"; "train"] [] 3 [] [("input", TName "x"); ("train", TName "training")] [] (Some "paddle.nn.functional.alpha_dropout"));
  R "torch.amax" (Some "ChangePrefixMatcher") false false (bare None);
  R "torch.amin" (Some "ChangePrefixMatcher") false false (bare None);
  R "torch.aminmax" (Some "ChangePrefixMatcher") false false (bare None);
  R "torch.amp.autocast" (Some "ChangePrefixMatcher") false false (bare None);
  R "torch.angle" (Some "ChangePrefixMatcher") false false (bare None);
  R "torch.any" (Some "ChangePrefixMatcher") false false (bare None);
  R "torch.arange" (Some "ChangePrefixMatcher") false false (bare None);
  R "torch.argmax" (Some "ChangePrefixMatcher") false false (bare None);
  R "torch.argmin" (Some "ChangePrefixMatcher") false false (bare None);
  R "torch.argsort" (Some "ChangePrefixMatcher") false false (bare None);
  R "torch.argwhere" (Some "ChangePrefixMatcher") false false (bare None);
  R "torch.as_strided" (Some "ChangePrefixMatcher") false false (bare None);
  R "torch.as_tensor" (Some "ChangePrefixMatcher") false false (bare None);
  R "torch.asarray" (Some "ChangePrefixMatcher") false false (bare None);
  R "torch.asin" (Some "ChangePrefixMatcher") false false (bare None);
  R "torch.asin_" (Some "ChangePrefixMatcher") false false (bare None);
  R "torch.asinh" (Some "ChangePrefixMatcher") false false (bare None);
  R "torch.asinh_" (Some "ChangePrefixMatcher") false false (bare None);
  R "torch.atan" (Some "ChangePrefixMatcher") false false (bare None);
  R "torch.atan2" (Some "ChangePrefixMatcher") false false (bare None);
  R "torch.atan_" (Some "ChangePrefixMatcher") false false (bare None);
  R "torch.atanh" (Some "ChangePrefixMatcher") false false (bare None);
  R "torch.atanh_" (Some "ChangePrefixMatcher") false false (bare None);
  R "torch.atleast_1d" (Some "ChangePrefixMatcher") false false (bare None);
  R "torch.atleast_2d" (Some "ChangePrefixMatcher") false false (bare None);
  R "torch.atleast_3d" (Some "ChangePrefixMatcher") false false (bare None);
  R "torch.autocast" (Some "ChangePrefixMatcher") false false (bare None);
  R "torch.autograd.Function" (Some "ChangePrefixMatcher") false false (bare None);
  R "torch.autograd.Function.backward" (Some "GenericMatcher") false true (MkEntry ["ctx"; "*grad_outputs"] [] 1 [] [("grad_outputs", TName "args")] [] None);
  R "torch.autograd.Function.forward" (Some "ChangeAPIMatcher") false false (MkEntry [] [] 1 [] [] [] (Some "paddle.autograd.PyLayer.forward"));
  R "torch.autograd.Variable" (Some "ADVariableMatcher") false false (MkEntry ["data"; "requires_grad"] [] 1 [] [] [] None);
  R "torch.autograd.backward" (Some "GenericMatcher") false false (MkEntry ["tensors"; "grad_tensors"; "retain_graph"; "create_graph"; "grad_variables"; "inputs"] [] 1 ["create_graph"; "grad_variables"; "inputs"] [] [] (Some "paddle.autograd.backward"));
  R "torch.autograd.enable_grad" (Some "ChangePrefixMatcher") false false (bare None);
  R "torch.autograd.function.FunctionCtx" (Some "ChangePrefixMatcher") false false (bare None);
  R "torch.autograd.function.FunctionCtx.mark_dirty" None false false (bare None);
  R "torch.autograd.function.FunctionCtx.mark_non_differentiable" (Some "ChangePrefixMatcher") false false (bare None);
  R "torch.autograd.function.FunctionCtx.mark_shared_storage" None false false (bare None);
  R "torch.autograd.function.FunctionCtx.save_for_backward" (Some "ChangePrefixMatcher") false false (bare None);
  R "torch.autograd.function.FunctionCtx.save_for_forward" None false false (bare None);
  R "torch.autograd.function.FunctionCtx.set_materialize_grads" (Some "ChangePrefixMatcher") false false (bare None);
  R "torch.autograd.function.once_differentiable" (Some "ChangePrefixMatcher") false false (bare None);
  R "torch.autograd.functional.hessian" (Some "GenericMatcher") false false (MkEntry ["func"; "inputs"; "create_graph"; "strict"; "vectorize"; "outer_jacobian_strategy"] [] 2 ["create_graph"; "strict"; "vectorize"; "outer_jacobian_strategy"] [("inputs", TName "xs")] [("is_batched", "False")] (Some "paddle.incubate.autograd.Hessian"));
  R "torch.autograd.functional.jacobian" (Some "GenericMatcher") false false (MkEntry ["func"; "inputs"; "create_graph"; "strict"; "vectorize"; "strategy"] [] 2 ["create_graph"; "strict"; "vectorize"; "strategy"] [("inputs", TName "xs")] [("is_batched", "False")] (Some "paddle.incubate.autograd.Jacobian"));
  R "torch.autograd.functional.jvp" (Some "GenericMatcher") false false (MkEntry ["func"; "inputs"; "v"; "create_graph"; "strict"] [] 2 ["create_graph"; "strict"] [("inputs", TName "xs")] [] (Some "paddle.incubate.autograd.jvp"));
  R "torch.autograd.functional.vjp" (Some "GenericMatcher") false false (MkEntry ["func"; "inputs"; "v"; "create_graph"; "strict"] [] 2 ["create_graph"; "strict"] [("inputs", TName "xs")] [] (Some "paddle.incubate.autograd.vjp"));
  R "torch.autograd.grad" (Some "GenericMatcher") false false (MkEntry ["outputs"; "inputs"; "grad_outputs"; "retain_graph"; "create_graph"; "only_inputs"; "allow_unused"; "is_grads_batched"; "materialize_grads"] [] 2 ["only_inputs"; "materialize_grads"] [("is_grads_batched", TNone)] [] (Some "paddle.grad"));
  R "torch.autograd.grad_mode.set_grad_enabled" (Some "ChangePrefixMatcher") false false (bare None);
  R "torch.autograd.graph.saved_tensors_hooks" (Some "ChangeAPIMatcher") false false (MkEntry [] [] 2 [] [] [] (Some "paddle.autograd.saved_tensors_hooks"));
  R "torch.autograd.profiler.profile" None false false (bare None);
  R "torch.autograd.profiler.profile.export_chrome_trace" (Some "GenericMatcher") false false (MkEntry ["path"] [] 1 [] [("path", TName "dir_name")] [] (Some "paddle.profiler.export_chrome_tracing"));
  R "torch.autograd.set_grad_enabled" (Some "ChangePrefixMatcher") false false (bare None);
  R "torch.backends.cuda.is_built" (Some "ChangeAPIMatcher") false false (bare (Some "paddle.device.is_compiled_with_cuda"));
  R "torch.backends.cudnn.is_available" (Some "CudnnIsAvailableMatcher") false false (bare None)].

Definition api_mapping_7 : list row := [
  R "torch.backends.cudnn.version" (Some "ChangeAPIMatcher") false false (bare (Some "paddle.device.get_cudnn_version"));
  R "torch.baddbmm" (Some "ChangePrefixMatcher") false false (bare None);
  R "torch.batch_norm" None false false (bare None);
  R "torch.bernoulli" (Some "ChangePrefixMatcher") false false (bare None);
  R "torch.binary_cross_entropy_with_logits" None false false (bare None);
  R "torch.bincount" (Some "ChangePrefixMatcher") false false (bare None);
  R "torch.bitwise_and" (Some "ChangePrefixMatcher") false false (bare None);
  R "torch.bitwise_left_shift" (Some "ChangePrefixMatcher") false false (bare None);
  R "torch.bitwise_not" (Some "ChangePrefixMatcher") false false (bare None);
  R "torch.bitwise_or" (Some "ChangePrefixMatcher") false false (bare None);
  R "torch.bitwise_right_shift" (Some "ChangePrefixMatcher") false false (bare None);
  R "torch.bitwise_xor" (Some "ChangePrefixMatcher") false false (bare None);
  R "torch.blackman_window" (Some "ChangePrefixMatcher") false false (bare None);
  R "torch.block_diag" (Some "ChangePrefixMatcher") false false (bare None);
  R "torch.bmm" (Some "ChangePrefixMatcher") false false (bare None);
  R "torch.broadcast_shapes" (Some "ChangePrefixMatcher") false false (bare None);
  R "torch.broadcast_tensors" (Some "ChangePrefixMatcher") false false (bare None);
  R "torch.broadcast_to" (Some "ChangePrefixMatcher") false false (bare None);
  R "torch.bucketize" (Some "ChangePrefixMatcher") false false (bare None);
  R "torch.can_cast" (Some "CanCastMatcher") false false (MkEntry ["from_"; "to"] [] 0 [] [] [] None);
  R "torch.cartesian_prod" (Some "ChangePrefixMatcher") false false (bare None);
  R "torch.cat" (Some "ChangePrefixMatcher") false false (bare None);
  R "torch.cdist" (Some "ChangePrefixMatcher") false false (bare None);
  R "torch.ceil" (Some "ChangePrefixMatcher") false false (bare None);
  R "torch.ceil_" (Some "ChangePrefixMatcher") false false (bare None);
  R "torch.celu" (Some "GenericMatcher") false false (MkEntry ["input"; "alpha"] [] 1 [] [("input", TName "x")] [] (Some "paddle.nn.functional.celu"));
  R "torch.chain_matmul" (Some "Chain_MatmulMatcher") false false (MkEntry ["*matrices"; "out"] [] 1 [] [] [] None);
  R "torch.cholesky" (Some "GenericMatcher") false false (MkEntry ["input"; "upper"; "*"; "out"] [] 1 [] [("input", TName "x")] [] (Some "paddle.linalg.cholesky"));
  R "torch.cholesky_inverse" (Some "GenericMatcher") false false (MkEntry ["input"; "upper"; "*"; "out"] [] 1 [] [("input", TName "x")] [] (Some "paddle.linalg.cholesky_inverse"));
  R "torch.cholesky_solve" (Some "GenericMatcher") false false (MkEntry ["input"; "input2"; "upper"; "*"; "out"] [] 2 [] [("input", TName "x"); ("input2", TName "y")] [] (Some "paddle.linalg.cholesky_solve"));
  R "torch.chunk" (Some "ChangePrefixMatcher") false false (bare None);
  R "torch.clamp" (Some "ChangePrefixMatcher") false false (bare None);
  R "torch.clamp_" (Some "ChangePrefixMatcher") false false (bare None);
  R "torch.clamp_max" (Some "ChangePrefixMatcher") false false (bare None);
  R "torch.clamp_min" (Some "GenericMatcher") false false (MkEntry ["input"; "min"; "*"; "out"] [] 2 [] [("input", TName "x")] [] (Some "paddle.clip"));
  R "torch.clip" (Some "ChangePrefixMatcher") false false (bare None);
  R "torch.clone" (Some "ChangePrefixMatcher") false false (bare None);
  R "torch.column_stack" (Some "GenericMatcher") false false (MkEntry ["tensors"; "*"; "out"] [] 1 [] [("tensors", TName "x")] [] (Some "paddle.column_stack"));
  R "torch.combinations" (Some "ChangePrefixMatcher") false false (bare None);
  R "torch.complex" (Some "ChangePrefixMatcher") false false (bare None);
  R "torch.concat" (Some "ChangePrefixMatcher") false false (bare None);
  R "torch.concatenate" (Some "ChangePrefixMatcher") false false (bare None);
  R "torch.conj" (Some "ChangePrefixMatcher") false false (bare None);
  R "torch.conj_physical" (Some "GenericMatcher") false false (MkEntry ["input"; "*"; "out"] [] 1 [] [("input", TName "x")] [] (Some "paddle.conj"));
  R "torch.conv1d" (Some "ChangePrefixMatcher") false false (bare None);
  R "torch.conv2d" (Some "ChangePrefixMatcher") false false (bare None);
  R "torch.conv3d" (Some "ChangePrefixMatcher") false false (bare None);
  R "torch.copysign" (Some "ChangePrefixMatcher") false false (bare None);
  R "torch.corrcoef" (Some "GenericMatcher") false false (MkEntry ["input"] [] 1 [] [("input", TName "x")] [("rowvar", "True")] (Some "paddle.linalg.corrcoef"));
  R "torch.cos" (Some "ChangePrefixMatcher") false false (bare None);
  R "torch.cos_" (Some "ChangePrefixMatcher") false false (bare None);
  R "torch.cosh" (Some "ChangePrefixMatcher") false false (bare None);
  R "torch.cosh_" (Some "ChangePrefixMatcher") false false (bare None);
  R "torch.cosine_embedding_loss" None false false (bare None);
  R "torch.count_nonzero" (Some "ChangePrefixMatcher") false false (bare None);
  R "torch.cov" (Some "GenericMatcher") false false (MkEntry ["input"; "*"; "correction"; "fweights"; "aweights"] [] 1 [] [("input", TName "x"); ("correction", TName "ddof")] [] (Some "paddle.linalg.cov"));
  R "torch.cpu.amp.autocast" (Some "GenericMatcher") false false (MkEntry ["enabled"; "dtype"; "cache_enabled"] [] 0 [] [("enabled", TName "enable"); ("dtype", TName "dtype"); ("cache_enabled", TNone)] [] (Some "paddle.amp.auto_cast"));
  R "torch.cpu.current_device" (Some "ChangeAPIMatcher") false false (bare (Some "paddle.get_device"));
  R "torch.cpu.set_device" (Some "Device2StrMatcher") false false (MkEntry ["device"] [] 1 [] [("device", TName "device")] [] (Some "paddle.device.set_device"));
  R "torch.cross" (Some "ChangePrefixMatcher") false false (bare None);
  R "torch.ctc_loss" None false false (bare None);
  R "torch.cuda.BFloat16Tensor" (Some "ChangePrefixMatcher") false false (bare None);
  R "torch.cuda.BoolTensor" (Some "ChangePrefixMatcher") false false (bare None);
  R "torch.cuda.ByteTensor" (Some "ChangePrefixMatcher") false false (bare None);
  R "torch.cuda.CUDAGraph" (Some "ChangePrefixMatcher") false false (bare None);
  R "torch.cuda.CharTensor" (Some "ChangePrefixMatcher") false false (bare None);
  R "torch.cuda.DoubleTensor" (Some "ChangePrefixMatcher") false false (bare None);
  R "torch.cuda.Event" (Some "ChangePrefixMatcher") false false (bare None);
  R "torch.cuda.FloatTensor" (Some "ChangePrefixMatcher") false false (bare None);
  R "torch.cuda.HalfTensor" (Some "ChangePrefixMatcher") false false (bare None);
  R "torch.cuda.IntTensor" (Some "ChangePrefixMatcher") false false (bare None);
  R "torch.cuda.LongTensor" (Some "ChangePrefixMatcher") false false (bare None);
  R "torch.cuda.OutOfMemoryError" (Some "ChangePrefixMatcher") false false (bare None);
  R "torch.cuda.ShortTensor" (Some "ChangePrefixMatcher") false false (bare None);
  R "torch.cuda.Stream" (Some "ChangePrefixMatcher") false false (bare None);
  R "torch.cuda.StreamContext" (Some "ChangePrefixMatcher") false false (bare None);
  R "torch.cuda.amp.GradScaler" (Some "ChangePrefixMatcher") false false (bare None);
  R "torch.cuda.amp.autocast" (Some "ChangePrefixMatcher") false false (bare None);
  R "torch.cuda.amp.autocast_mode.autocast" (Some "ChangePrefixMatcher") false false (bare None);
  R "torch.cuda.check_error" (Some "ChangePrefixMatcher") false false (bare None);
  R "torch.cuda.comm.broadcast" (Some "GenericMatcher") false false (MkEntry ["tensor"; "devices"; "*"; "out"] [] 1 [] [("devices", TName "src")] [] (Some "paddle.distributed.broadcast"));
  R "torch.cuda.cudart" (Some "ChangePrefixMatcher") false false (bare None);
  R "torch.cuda.current_device" (Some "ChangePrefixMatcher") false false (bare None);
  R "torch.cuda.current_stream" (Some "ChangePrefixMatcher") false false (bare None);
  R "torch.cuda.device" (Some "ChangePrefixMatcher") false false (bare None);
  R "torch.cuda.device_count" (Some "ChangePrefixMatcher") false false (bare None);
  R "torch.cuda.empty_cache" (Some "ChangePrefixMatcher") false false (bare None);
  R "torch.cuda.get_device_capability" (Some "ChangePrefixMatcher") false false (bare None);
  R "torch.cuda.get_device_name" (Some "ChangePrefixMatcher") false false (bare None);
  R "torch.cuda.get_device_properties" (Some "ChangePrefixMatcher") false false (bare None);
  R "torch.cuda.get_rng_state" (Some "ChangePrefixMatcher") false false (bare None);
  R "torch.cuda.get_rng_state_all" (Some "ChangeAPIMatcher") false false (bare (Some "paddle.get_rng_state"));
  R "torch.cuda.initial_seed" (Some "CudaSeedMatcher") false false (bare None);
  R "torch.cuda.ipc_collect" (Some "ChangePrefixMatcher") false false (bare None);
  R "torch.cuda.is_available" (Some "ChangePrefixMatcher") false false (bare None);
  R "torch.cuda.is_bf16_supported" (Some "ChangePrefixMatcher") false false (bare None);
  R "torch.cuda.is_current_stream_capturing" (Some "ChangePrefixMatcher") false false (bare None);
  R "torch.cuda.is_initialized" (Some "ChangePrefixMatcher") false false (bare None);
  R "torch.cuda.manual_seed" (Some "ChangePrefixMatcher") false false (bare None);
  R "torch.cuda.manual_seed_all" (Some "ChangePrefixMatcher") false false (bare None)].

Definition api_mapping_8 : list row := [
  R "torch.cuda.max_memory_allocated" (Some "ChangePrefixMatcher") false false (bare None);
  R "torch.cuda.max_memory_reserved" (Some "ChangePrefixMatcher") false false (bare None);
  R "torch.cuda.mem_get_info" (Some "ChangePrefixMatcher") false false (bare None);
  R "torch.cuda.memory_allocated" (Some "ChangePrefixMatcher") false false (bare None);
  R "torch.cuda.memory_reserved" (Some "ChangePrefixMatcher") false false (bare None);
  R "torch.cuda.nvtx.range_pop" (Some "ChangePrefixMatcher") false false (bare None);
  R "torch.cuda.nvtx.range_push" (Some "ChangePrefixMatcher") false false (bare None);
  R "torch.cuda.reset_max_memory_allocated" (Some "ChangeAPIMatcher") false false (bare (Some "paddle.device.cuda.reset_max_memory_allocated"));
  R "torch.cuda.reset_max_memory_cached" (Some "ChangeAPIMatcher") false false (bare (Some "paddle.device.cuda.reset_max_memory_reserved"));
  R "torch.cuda.reset_peak_memory_stats" (Some "ChangePrefixMatcher") false false (bare None);
  R "torch.cuda.set_device" (Some "ChangePrefixMatcher") false false (bare None);
  R "torch.cuda.set_per_process_memory_fraction" (Some "SetPerProcessMemoryFractionMatcher") false false (MkEntry ["fraction"; "device"] [] 1 ["device"] [] [] None);
  R "torch.cuda.set_rng_state" (Some "ChangePrefixMatcher") false false (bare None);
  R "torch.cuda.set_rng_state_all" (Some "GenericMatcher") false false (MkEntry ["new_states"] [] 1 [] [("new_states", TName "state_list")] [] (Some "paddle.set_rng_state"));
  R "torch.cuda.set_stream" (Some "ChangePrefixMatcher") false false (bare None);
  R "torch.cuda.stream" (Some "ChangePrefixMatcher") false false (bare None);
  R "torch.cuda.synchronize" (Some "ChangePrefixMatcher") false false (bare None);
  R "torch.cummax" (Some "ChangePrefixMatcher") false false (bare None);
  R "torch.cummin" (Some "ChangePrefixMatcher") false false (bare None);
  R "torch.cumprod" (Some "ChangePrefixMatcher") false false (bare None);
  R "torch.cumsum" (Some "ChangePrefixMatcher") false false (bare None);
  R "torch.cumulative_trapezoid" (Some "ChangePrefixMatcher") false false (bare None);
  R "torch.deg2rad" (Some "ChangePrefixMatcher") false false (bare None);
  R "torch.det" (Some "ChangePrefixMatcher") false false (bare None);
  R "torch.detach" (Some "DetachMatcher") false false (MkEntry ["input"] [] 1 [] [] [] None);
  R "torch.device" (Some "ChangePrefixMatcher") false false (bare None);
  R "torch.diag" (Some "ChangePrefixMatcher") false false (bare None);
  R "torch.diag_embed" (Some "ChangePrefixMatcher") false false (bare None);
  R "torch.diagflat" (Some "ChangePrefixMatcher") false false (bare None);
  R "torch.diagonal" (Some "ChangePrefixMatcher") false false (bare None);
  R "torch.diagonal_scatter" (Some "ChangePrefixMatcher") false false (bare None);
  R "torch.diff" (Some "ChangePrefixMatcher") false false (bare None);
  R "torch.dist" (Some "ChangePrefixMatcher") false false (bare None);
  R "torch.distributed.Backend" (Some "DistributedBackendMatcher") false false (MkEntry ["name"] [] 1 [] [] [] (Some "torch.distributed.Backend"));
  R "torch.distributed.P2POp" (Some "GenericMatcher") false false (MkEntry ["op"; "tensor"; "peer"; "group"; "tag"] [] 2 ["tag"] [] [] (Some "paddle.distributed.P2POp"));
  R "torch.distributed.ProcessGroup" (Some "ChangePrefixMatcher") false false (bare None);
  R "torch.distributed.ReduceOp" (Some "ChangePrefixMatcher") false false (bare None);
  R "torch.distributed.all_gather" (Some "ReverseAsyncOpMatcher") false false (MkEntry ["tensor_list"; "tensor"; "group"; "async_op"] [] 2 [] [] [] (Some "paddle.distributed.all_gather"));
  R "torch.distributed.all_gather_into_tensor" (Some "ReverseAsyncOpMatcher") false false (MkEntry ["output_tensor"; "input_tensor"; "group"; "async_op"] [] 2 [] [("output_tensor", TName "tensor_or_tensor_list"); ("input_tensor", TName "tensor")] [] (Some "paddle.distributed.stream.all_gather"));
  R "torch.distributed.all_gather_object" (Some "ChangePrefixMatcher") false false (bare None);
  R "torch.distributed.all_reduce" (Some "ReverseAsyncOpMatcher") false false (MkEntry ["tensor"; "op"; "group"; "async_op"] [] 1 [] [] [] (Some "paddle.distributed.all_reduce"));
  R "torch.distributed.all_to_all" (Some "GenericMatcher") false false (MkEntry ["output_tensor_list"; "input_tensor_list"; "group"; "async_op"] [] 2 [] [("output_tensor_list", TName "out_tensor_list"); ("input_tensor_list", TName "in_tensor_list"); ("async_op", TNone)] [] (Some "paddle.distributed.alltoall"));
  R "torch.distributed.all_to_all_single" (Some "ReverseAsyncOpMatcher") false false (MkEntry ["output"; "input"; "output_split_sizes"; "input_split_sizes"; "group"; "async_op"] [] 2 [] [("output", TName "out_tensor"); ("input", TName "in_tensor"); ("output_split_sizes", TName "out_split_sizes"); ("input_split_sizes", TName "in_split_sizes")] [] (Some "paddle.distributed.alltoall_single"));
  R "torch.distributed.barrier" (Some "GenericMatcher") false false (MkEntry ["group"; "async_op"; "device_ids"] [] 0 ["device_ids"] [("async_op", TNone)] [] (Some "paddle.distributed.barrier"));
  R "torch.distributed.batch_isend_irecv" (Some "ChangePrefixMatcher") false false (bare None);
  R "torch.distributed.broadcast" (Some "ReverseAsyncOpMatcher") false false (MkEntry ["tensor"; "src"; "group"; "async_op"] [] 2 [] [] [] (Some "paddle.distributed.broadcast"));
  R "torch.distributed.broadcast_object_list" (Some "GenericMatcher") false false (MkEntry ["object_list"; "src"; "group"; "device"] [] 1 [] [("device", TNone)] [] (Some "paddle.distributed.broadcast_object_list"));
  R "torch.distributed.gather" (Some "ReverseAsyncOpMatcher") false false (MkEntry ["tensor"; "gather_list"; "dst"; "group"; "async_op"] [] 1 [] [] [] (Some "paddle.distributed.gather"));
  R "torch.distributed.get_backend" (Some "ChangePrefixMatcher") false false (bare None);
  R "torch.distributed.get_rank" (Some "ChangePrefixMatcher") false false (bare None);
  R "torch.distributed.get_world_size" (Some "ChangePrefixMatcher") false false (bare None);
  R "torch.distributed.init_process_group" (Some "ChangePrefixMatcher") false false (bare None);
  R "torch.distributed.irecv" (Some "GenericMatcher") false false (MkEntry ["tensor"; "src"; "group"; "tag"] [] 1 ["tag"] [] [] (Some "paddle.distributed.irecv"));
  R "torch.distributed.is_available" (Some "ChangePrefixMatcher") false false (bare None);
  R "torch.distributed.is_initialized" (Some "ChangePrefixMatcher") false false (bare None);
  R "torch.distributed.is_nccl_available" (Some "ChangeAPIMatcher") false false (bare (Some "paddle.core.is_compiled_with_nccl"));
  R "torch.distributed.isend" (Some "GenericMatcher") false false (MkEntry ["tensor"; "dst"; "group"; "tag"] [] 2 ["tag"] [] [] (Some "paddle.distributed.isend"));
  R "torch.distributed.monitored_barrier" (Some "GenericMatcher") false false (MkEntry ["group"; "timeout"; "wait_all_ranks"] [] 0 [] [("timeout", TNone); ("wait_all_ranks", TNone)] [] (Some "paddle.distributed.barrier"));
  R "torch.distributed.new_group" (Some "GenericMatcher") false false (MkEntry ["ranks"; "timeout"; "backend"; "pg_options"] [] 0 ["timeout"; "pg_options"] [] [] (Some "paddle.distributed.new_group"));
  R "torch.distributed.optim.DistributedOptimizer" (Some "GenericMatcher") false false (MkEntry ["optimizer_class"; "params_rref"; "*args"; "**kwargs"] [] 1 ["params_rref"] [("optimizer_class", TName "optimizer")] [] (Some "paddle.distributed.fleet.distributed_optimizer"));
  R "torch.distributed.recv" (Some "GenericMatcher") false false (MkEntry ["tensor"; "src"; "group"; "tag"] [] 1 ["tag"] [] [] (Some "paddle.distributed.recv"));
  R "torch.distributed.reduce" (Some "ReverseAsyncOpMatcher") false false (MkEntry ["tensor"; "dst"; "op"; "group"; "async_op"] [] 2 [] [] [] (Some "paddle.distributed.reduce"));
  R "torch.distributed.reduce_scatter" (Some "ReverseAsyncOpMatcher") false false (MkEntry ["output"; "input_list"; "op"; "group"; "async_op"] [] 2 [] [("output", TName "tensor"); ("input_list", TName "tensor_list")] [] (Some "paddle.distributed.reduce_scatter"));
  R "torch.distributed.reduce_scatter_tensor" (Some "ReduceScatterTensorMatcher") false false (MkEntry ["output"; "input"; "op"; "group"; "async_op"] [] 2 [] [("output", TName "tensor"); ("input", TName "tensor_list")] [] (Some "paddle.distributed.reduce_scatter"));
  R "torch.distributed.rpc.get_worker_info" (Some "GenericMatcher") false false (MkEntry ["worker_name"] [] 0 [] [("worker_name", TName "name")] [] (Some "paddle.distributed.rpc.get_worker_info"));
  R "torch.distributed.rpc.init_rpc" (Some "GenericMatcher") false false (MkEntry ["name"; "backend"; "rank"; "world_size"; "rpc_backend_options"] [] 1 ["rpc_backend_options"] [] [] (Some "paddle.distributed.rpc.init_rpc"));
  R "torch.distributed.rpc.remote" (Some "RpcRemoteMatcher") false false (MkEntry ["to"; "func"; "args"; "kwargs"; "timeout"] [] 2 [] [("func", TName "fn")] [] (Some "paddle.distributed.rpc.rpc_async"));
  R "torch.distributed.rpc.rpc_async" (Some "GenericMatcher") false false (MkEntry ["to"; "func"; "args"; "kwargs"; "timeout"] [] 2 ["args"] [("func", TName "fn")] [] (Some "paddle.distributed.rpc.rpc_async"));
  R "torch.distributed.rpc.rpc_sync" (Some "GenericMatcher") false false (MkEntry ["to"; "func"; "args"; "kwargs"; "timeout"] [] 2 ["args"] [("func", TName "fn")] [] (Some "paddle.distributed.rpc.rpc_sync"));
  R "torch.distributed.rpc.shutdown" (Some "GenericMatcher") false false (MkEntry ["graceful"; "timeout"] [] 0 [] [("graceful", TNone); ("timeout", TNone)] [] (Some "paddle.distributed.rpc.shutdown"));
  R "torch.distributed.scatter" (Some "ReverseAsyncOpMatcher") false false (MkEntry ["tensor"; "scatter_list"; "src"; "group"; "async_op"] [] 1 [] [("scatter_list", TName "tensor_list")] [] (Some "paddle.distributed.scatter"));
  R "torch.distributed.scatter_object_list" (Some "GenericMatcher") false false (MkEntry ["scatter_object_output_list"; "scatter_object_input_list"; "src"; "group"] [] 2 [] [("scatter_object_output_list", TName "out_object_list"); ("scatter_object_input_list", TName "in_object_list")] [] (Some "paddle.distributed.scatter_object_list"));
  R "torch.distributed.send" (Some "GenericMatcher") false false (MkEntry ["tensor"; "dst"; "group"; "tag"] [] 2 ["tag"] [] [] (Some "paddle.distributed.send"));
  R "torch.distributions.Beta" (Some "ChangePrefixMatcher") false false (bare None);
  R "torch.distributions.Categorical" (Some "ChangeAPIMatcher") false false (bare (Some "paddle.compat.distributions.Categorical"));
  R "torch.distributions.Distribution" (Some "ChangePrefixMatcher") false false (bare None);
  R "torch.distributions.Distribution.log_prob" (Some "ChangePrefixMatcher") false false (bare None);
  R "torch.distributions.Distribution.rsample" (Some "ChangePrefixMatcher") false false (bare None);
  R "torch.distributions.Distribution.sample" (Some "ChangePrefixMatcher") false false (bare None);
  R "torch.distributions.ExponentialFamily" (Some "ChangePrefixMatcher") false false (bare None);
  R "torch.distributions.MultivariateNormal" (Some "ChangePrefixMatcher") false false (bare None);
  R "torch.distributions.Normal" (Some "ChangePrefixMatcher") false false (bare None);
  R "torch.distributions.bernoulli.Bernoulli" (Some "GenericMatcher") false false (MkEntry ["probs"; "logits"; "validate_args"] [] 1 ["logits"] [("validate_args", TNone)] [] (Some "paddle.distribution.Bernoulli"));
  R "torch.distributions.beta.Beta" (Some "GenericMatcher") false false (MkEntry ["concentration1"; "concentration0"; "validate_args"] [] 2 [] [("concentration1", TName "alpha"); ("concentration0", TName "beta"); ("validate_args", TNone)] [] (Some "paddle.distribution.Beta"));
  R "torch.distributions.binomial.Binomial" (Some "GenericMatcher") false false (MkEntry ["total_count"; "probs"; "logits"; "validate_args"] [] 0 ["logits"] [("validate_args", TNone)] [("total_count", "1")] (Some "paddle.distribution.Binomial"));
  R "torch.distributions.categorical.Categorical" (Some "ChangeAPIMatcher") false false (bare (Some "paddle.compat.distributions.categorical.Categorical"));
  R "torch.distributions.cauchy.Cauchy" (Some "GenericMatcher") false false (MkEntry ["loc"; "scale"; "validate_args"] [] 2 [] [("validate_args", TNone)] [] (Some "paddle.distribution.Cauchy"));
  R "torch.distributions.chi2.Chi2" (Some "GenericMatcher") false false (MkEntry ["df"; "validate_args"] [] 1 [] [("validate_args", TNone)] [] (Some "paddle.distribution.Chi2"));
  R "torch.distributions.constraints.Constraint" (Some "ChangeAPIMatcher") false false (bare (Some "paddle.distribution.constraint.Constraint"));
  R "torch.distributions.constraints.positive_definite.check" (Some "ChangePrefixMatcher") false false (bare None);
  R "torch.distributions.continuous_bernoulli.ContinuousBernoulli" (Some "GenericMatcher") false false (MkEntry ["probs"; "logits"; "lims"; "validate_args"] [] 0 ["logits"] [("validate_args", TNone)] [] (Some "paddle.distribution.ContinuousBernoulli"));
  R "torch.distributions.dirichlet.Dirichlet" (Some "GenericMatcher") false false (MkEntry ["concentration"; "validate_args"] [] 1 [] [("validate_args", TNone)] [] (Some "paddle.distribution.Dirichlet"));
  R "torch.distributions.distribution.Distribution" (Some "ChangePrefixMatcher") false false (bare None);
  R "torch.distributions.distribution.Distribution.cdf" (Some "ChangePrefixMatcher") false false (MkEntry [] [] 1 [] [] [] None);
  R "torch.distributions.distribution.Distribution.entropy" (Some "ChangePrefixMatcher") false false (bare None);
  R "torch.distributions.distribution.Distribution.enumerate_support" (Some "ChangePrefixMatcher") false false (bare None);
  R "torch.distributions.distribution.Distribution.expand" None false false (MkEntry [] [] 1 [] [] [] None);
  R "torch.distributions.distribution.Distribution.icdf" (Some "ChangePrefixMatcher") false false (MkEntry [] [] 1 [] [] [] None);
  R "torch.distributions.distribution.Distribution.log_prob" (Some "ChangePrefixMatcher") false false (MkEntry [] [] 1 [] [] [] None);
  R "torch.distributions.distribution.Distribution.perplexity" (Some "ChangePrefixMatcher") false false (bare None)].

Definition api_mapping_9 : list row := [
  R "torch.distributions.distribution.Distribution.rsample" (Some "ChangePrefixMatcher") false false (bare None);
  R "torch.distributions.distribution.Distribution.sample" (Some "ChangePrefixMatcher") false false (bare None);
  R "torch.distributions.distribution.Distribution.sample_n" (Some "ChangePrefixMatcher") false false (MkEntry [] [] 1 [] [] [] None);
  R "torch.distributions.distribution.Distribution.set_default_validate_args" (Some "ChangePrefixMatcher") false false (bare None);
  R "torch.distributions.exp_family.ExponentialFamily" (Some "GenericMatcher") false false (MkEntry ["batch_shape"; "event_shape"; "validate_args"] [] 0 [] [("validate_args", TNone)] [] (Some "paddle.distribution.ExponentialFamily"));
  R "torch.distributions.exponential.Exponential" (Some "GenericMatcher") false false (MkEntry ["rate"; "validate_args"] [] 0 [] [("validate_args", TNone)] [] (Some "paddle.distribution.Exponential"));
  R "torch.distributions.gamma.Gamma" (Some "GenericMatcher") false false (MkEntry ["concentration"; "rate"; "validate_args"] [] 2 [] [("validate_args", TNone)] [] (Some "paddle.distribution.Gamma"));
  R "torch.distributions.geometric.Geometric" (Some "GenericMatcher") false false (MkEntry ["probs"; "logits"; "validate_args"] [] 1 ["logits"] [("validate_args", TNone)] [] (Some "paddle.distribution.Geometric"));
  R "torch.distributions.gumbel.Gumbel" (Some "GenericMatcher") false false (MkEntry ["loc"; "scale"; "validate_args"] [] 2 [] [("validate_args", TNone)] [] (Some "paddle.distribution.Gumbel"));
  R "torch.distributions.independent.Independent" (Some "GenericMatcher") false false (MkEntry ["base_distribution"; "reinterpreted_batch_ndims"; "validate_args"] [] 2 [] [("base_distribution", TName "base"); ("reinterpreted_batch_ndims", TName "reinterpreted_batch_rank"); ("validate_args", TNone)] [] (Some "paddle.distribution.Independent"));
  R "torch.distributions.kl.kl_divergence" (Some "ChangeAPIMatcher") false false (MkEntry [] [] 2 [] [] [] (Some "paddle.distribution.kl_divergence"));
  R "torch.distributions.kl.register_kl" (Some "GenericMatcher") false false (MkEntry ["type_p"; "type_q"] [] 2 [] [("type_p", TName "cls_p"); ("type_q", TName "cls_q")] [] (Some "paddle.distribution.register_kl"));
  R "torch.distributions.laplace.Laplace" (Some "GenericMatcher") false false (MkEntry ["loc"; "scale"; "validate_args"] [] 2 [] [("validate_args", TNone)] [] (Some "paddle.distribution.Laplace"));
  R "torch.distributions.lkj_cholesky.LKJCholesky" (Some "GenericMatcher") false false (MkEntry ["dim"; "concentration"; "validate_args"] [] 1 [] [("validate_args", TNone)] [] (Some "paddle.distribution.LKJCholesky"));
  R "torch.distributions.log_normal.LogNormal" (Some "GenericMatcher") false false (MkEntry ["loc"; "scale"; "validate_args"] [] 2 [] [("validate_args", TNone)] [] (Some "paddle.distribution.LogNormal"));
  R "torch.distributions.multinomial.Multinomial" (Some "GenericMatcher") false false (MkEntry ["total_count"; "probs"; "logits"; "validate_args"] [] 2 ["logits"] [("validate_args", TNone)] [] (Some "paddle.distribution.Multinomial"));
  R "torch.distributions.multivariate_normal.MultivariateNormal" (Some "ChangePrefixMatcher") false false (bare None);
  R "torch.distributions.normal.Normal" (Some "ChangePrefixMatcher") false false (bare None);
  R "torch.distributions.poisson.Poisson" (Some "GenericMatcher") false false (MkEntry ["rate"; "validate_args"] [] 1 [] [("validate_args", TNone)] [] (Some "paddle.distribution.Poisson"));
  R "torch.distributions.studentT.StudentT" (Some "GenericMatcher") false false (MkEntry ["df"; "loc"; "scale"; "validate_args"] [] 1 [] [("validate_args", TNone)] [("loc", "0.0"); ("scale", "1.0")] (Some "paddle.distribution.StudentT"));
  R "torch.distributions.transformed_distribution.TransformedDistribution" (Some "GenericMatcher") false false (MkEntry ["base_distribution"; "transforms"; "validate_args"] [] 2 [] [("base_distribution", TName "base"); ("validate_args", TNone)] [] (Some "paddle.distribution.TransformedDistribution"));
  R "torch.distributions.transforms.AbsTransform" (Some "GenericMatcher") false false (MkEntry ["cache_size"] [] 0 [] [("cache_size", TNone)] [] (Some "paddle.distribution.AbsTransform"));
  R "torch.distributions.transforms.AffineTransform" (Some "GenericMatcher") false false (MkEntry ["loc"; "scale"; "event_dim"; "cache_size"] [] 2 [] [("event_dim", TNone); ("cache_size", TNone)] [] (Some "paddle.distribution.AffineTransform"));
  R "torch.distributions.transforms.ComposeTransform" (Some "GenericMatcher") false false (MkEntry ["parts"; "cache_size"] [] 1 [] [("parts", TName "transforms"); ("cache_size", TNone)] [] (Some "paddle.distribution.ChainTransform"));
  R "torch.distributions.transforms.ExpTransform" (Some "GenericMatcher") false false (MkEntry ["cache_size"] [] 0 [] [("cache_size", TNone)] [] (Some "paddle.distribution.ExpTransform"));
  R "torch.distributions.transforms.IndependentTransform" (Some "GenericMatcher") false false (MkEntry ["base_transform"; "reinterpreted_batch_ndims"; "cache_size"] [] 2 [] [("base_transform", TName "base"); ("reinterpreted_batch_ndims", TName "reinterpreted_batch_rank"); ("cache_size", TNone)] [] (Some "paddle.distribution.IndependentTransform"));
  R "torch.distributions.transforms.PositiveDefiniteTransform" (Some "TransformsPositiveDefiniteTransformMatcher") false false (MkEntry ["cache_size"] [] 0 [] [("cache_size", TNone)] [] None);
  R "torch.distributions.transforms.PowerTransform" (Some "GenericMatcher") false false (MkEntry ["exponent"; "cache_size"] [] 1 [] [("exponent", TName "power"); ("cache_size", TNone)] [] (Some "paddle.distribution.PowerTransform"));
  R "torch.distributions.transforms.ReshapeTransform" (Some "GenericMatcher") false false (MkEntry ["in_shape"; "out_shape"; "cache_size"] [] 2 [] [("in_shape", TName "in_event_shape"); ("out_shape", TName "out_event_shape"); ("cache_size", TNone)] [] (Some "paddle.distribution.ReshapeTransform"));
  R "torch.distributions.transforms.SigmoidTransform" (Some "GenericMatcher") false false (MkEntry ["cache_size"] [] 0 [] [("cache_size", TNone)] [] (Some "paddle.distribution.SigmoidTransform"));
  R "torch.distributions.transforms.SoftmaxTransform" (Some "GenericMatcher") false false (MkEntry ["cache_size"] [] 0 [] [("cache_size", TNone)] [] (Some "paddle.distribution.SoftmaxTransform"));
  R "torch.distributions.transforms.StackTransform" (Some "GenericMatcher") false false (MkEntry ["tseq"; "dim"; "cache_size"] [] 1 [] [("tseq", TName "transforms"); ("dim", TName "axis"); ("cache_size", TNone)] [] (Some "paddle.distribution.StackTransform"));
  R "torch.distributions.transforms.StickBreakingTransform" (Some "GenericMatcher") false false (MkEntry ["cache_size"] [] 0 [] [("cache_size", TNone)] [] (Some "paddle.distribution.StickBreakingTransform"));
  R "torch.distributions.transforms.TanhTransform" (Some "GenericMatcher") false false (MkEntry ["cache_size"] [] 0 [] [("cache_size", TNone)] [] (Some "paddle.distribution.TanhTransform"));
  R "torch.distributions.transforms.Transform" (Some "GenericMatcher") false false (MkEntry ["cache_size"] [] 0 [] [("cache_size", TNone)] [] (Some "paddle.distribution.Transform"));
  R "torch.distributions.uniform.Uniform" (Some "GenericMatcher") false false (MkEntry ["low"; "high"; "validate_args"] [] 2 [] [("validate_args", TNone)] [] (Some "paddle.distribution.Uniform"));
  R "torch.div" (Some "ChangePrefixMatcher") false false (bare None);
  R "torch.divide" (Some "ChangePrefixMatcher") false false (bare None);
  R "torch.dot" (Some "ChangePrefixMatcher") false false (bare None);
  R "torch.dropout" (Some "GenericMatcher") false false (MkEntry ["input"; "p"; "train"] [] 3 [] [("input", TName "x"); ("train", TName "training")] [] (Some "paddle.nn.functional.dropout"));
  R "torch.dsplit" (Some "GenericMatcher") false false (MkEntry ["input"; "indices"] ["sections"] 0 [] [("input", TName "x"); ("indices", TName "num_or_indices"); ("sections", TName "num_or_indices")] [] (Some "paddle.dsplit"));
  R "torch.dstack" (Some "GenericMatcher") false false (MkEntry ["tensors"; "*"; "out"] [] 1 [] [("tensors", TName "x")] [] (Some "paddle.dstack"));
  R "torch.eig" None false false (bare None);
  R "torch.einsum" (Some "ChangePrefixMatcher") false false (bare None);
  R "torch.embedding" None false false (bare None);
  R "torch.embedding_bag" None false false (bare None);
  R "torch.empty" (Some "ChangePrefixMatcher") false false (bare None);
  R "torch.empty_like" (Some "ChangePrefixMatcher") false false (bare None);
  R "torch.enable_grad" (Some "ChangePrefixMatcher") false false (bare None);
  R "torch.eq" (Some "ChangePrefixMatcher") false false (bare None);
  R "torch.equal" (Some "ChangeAPIMatcher") false false (bare (Some "paddle.compat.equal"));
  R "torch.erf" (Some "ChangePrefixMatcher") false false (bare None);
  R "torch.exp" (Some "ChangePrefixMatcher") false false (bare None);
  R "torch.exp_" (Some "ChangePrefixMatcher") false false (bare None);
  R "torch.expand_copy" (Some "ChangePrefixMatcher") false false (bare None);
  R "torch.expm1" (Some "ChangePrefixMatcher") false false (bare None);
  R "torch.expm1_" (Some "ChangePrefixMatcher") false false (bare None);
  R "torch.eye" (Some "ChangePrefixMatcher") false false (bare None);
  R "torch.feature_alpha_dropout" None false false (bare None);
  R "torch.fft.fft" (Some "ChangePrefixMatcher") false false (bare None);
  R "torch.fft.fft2" (Some "ChangePrefixMatcher") false false (bare None);
  R "torch.fft.fftfreq" (Some "ChangePrefixMatcher") false false (bare None);
  R "torch.fft.fftn" (Some "ChangePrefixMatcher") false false (bare None);
  R "torch.fft.fftshift" (Some "ChangePrefixMatcher") false false (bare None);
  R "torch.fft.hfft" (Some "ChangePrefixMatcher") false false (bare None);
  R "torch.fft.hfft2" (Some "ChangePrefixMatcher") false false (bare None);
  R "torch.fft.hfftn" (Some "ChangePrefixMatcher") false false (bare None);
  R "torch.fft.ifft" (Some "ChangePrefixMatcher") false false (bare None);
  R "torch.fft.ifft2" (Some "ChangePrefixMatcher") false false (bare None);
  R "torch.fft.ifftn" (Some "ChangePrefixMatcher") false false (bare None);
  R "torch.fft.ifftshift" (Some "ChangePrefixMatcher") false false (bare None);
  R "torch.fft.ihfft" (Some "ChangePrefixMatcher") false false (bare None);
  R "torch.fft.ihfft2" (Some "ChangePrefixMatcher") false false (bare None);
  R "torch.fft.ihfftn" (Some "ChangePrefixMatcher") false false (bare None);
  R "torch.fft.irfft" (Some "ChangePrefixMatcher") false false (bare None);
  R "torch.fft.irfft2" (Some "ChangePrefixMatcher") false false (bare None);
  R "torch.fft.irfftn" (Some "ChangePrefixMatcher") false false (bare None);
  R "torch.fft.rfft" (Some "ChangePrefixMatcher") false false (bare None);
  R "torch.fft.rfft2" (Some "ChangePrefixMatcher") false false (bare None);
  R "torch.fft.rfftfreq" (Some "ChangePrefixMatcher") false false (bare None);
  R "torch.fft.rfftn" (Some "ChangePrefixMatcher") false false (bare None);
  R "torch.finfo" (Some "ChangePrefixMatcher") false false (bare None);
  R "torch.fix" (Some "ChangePrefixMatcher") false false (bare None);
  R "torch.flatten" (Some "ChangePrefixMatcher") false false (bare None);
  R "torch.flip" (Some "ChangePrefixMatcher") false false (bare None);
  R "torch.fliplr" (Some "GenericMatcher") false false (MkEntry ["input"] [] 1 [] [("input", TName "x")] [("axis", "1")] (Some "paddle.flip"));
  R "torch.flipud" (Some "GenericMatcher") false false (MkEntry ["input"] [] 1 [] [("input", TName "x")] [("axis", "0")] (Some "paddle.flip"));
  R "torch.float_power" (Some "FloatPowerMatcher") false false (MkEntry ["input"; "exponent"; "*"; "out"] [] 2 [] [] [] None);
  R "torch.floor" (Some "ChangePrefixMatcher") false false (bare None);
  R "torch.floor_" (Some "ChangePrefixMatcher") false false (bare None);
  R "torch.floor_divide" (Some "ChangePrefixMatcher") false false (bare None);
  R "torch.fmax" (Some "ChangePrefixMatcher") false false (bare None);
  R "torch.fmin" (Some "ChangePrefixMatcher") false false (bare None);
  R "torch.fmod" (Some "ChangePrefixMatcher") false false (bare None);
  R "torch.frac" (Some "ChangePrefixMatcher") false false (bare None);
  R "torch.frexp" (Some "ChangePrefixMatcher") false false (bare None);
  R "torch.from_dlpack" (Some "GenericMatcher") false false (MkEntry ["ext_tensor"] [] 1 [] [("ext_tensor", TName "dlpack")] [] (Some "paddle.utils.dlpack.from_dlpack"));
  R "torch.from_numpy" (Some "ChangePrefixMatcher") false false (bare None);
  R "torch.frombuffer" (Some "FromBufferMatcher") false false (MkEntry ["buffer"; "*"; "dtype"; "count"; "offset"; "requires_grad"] [] 0 [] [] [] None);
  R "torch.full" (Some "ChangePrefixMatcher") false false (bare None)].

Definition api_mapping_10 : list row := [
  R "torch.full_like" (Some "ChangePrefixMatcher") false false (bare None);
  R "torch.functional.atleast_1d" (Some "ChangePrefixMatcher") false false (bare None);
  R "torch.functional.atleast_2d" (Some "ChangePrefixMatcher") false false (bare None);
  R "torch.functional.atleast_3d" (Some "ChangePrefixMatcher") false false (bare None);
  R "torch.functional.broadcast_shapes" (Some "ChangePrefixMatcher") false false (bare None);
  R "torch.functional.einsum" (Some "ChangePrefixMatcher") false false (bare None);
  R "torch.functional.meshgrid" (Some "ChangePrefixMatcher") false false (bare None);
  R "torch.functional.norm" (Some "ChangePrefixMatcher") false false (bare None);
  R "torch.functional.split" (Some "ChangePrefixMatcher") false false (bare None);
  R "torch.functional.unique_consecutive" (Some "ChangePrefixMatcher") false false (bare None);
  R "torch.gather" (Some "ChangePrefixMatcher") false false (bare None);
  R "torch.gcd" (Some "ChangePrefixMatcher") false false (bare None);
  R "torch.ge" (Some "ChangePrefixMatcher") false false (bare None);
  R "torch.ger" (Some "ChangePrefixMatcher") false false (bare None);
  R "torch.get_autocast_gpu_dtype" (Some "ChangePrefixMatcher") false false (bare None);
  R "torch.get_default_device" (Some "ChangePrefixMatcher") false false (bare None);
  R "torch.get_default_dtype" (Some "ChangePrefixMatcher") false false (bare None);
  R "torch.get_device" (Some "ChangePrefixMatcher") false false (bare None);
  R "torch.get_device_module" (Some "ChangePrefixMatcher") false false (bare None);
  R "torch.get_num_interop_threads" (Some "GetNumInteropThreadsMatcher") false false (bare None);
  R "torch.get_num_threads" (Some "GetNumThreadsMatcher") false false (bare None);
  R "torch.get_rng_state" (Some "ChangePrefixMatcher") false false (bare None);
  R "torch.greater" (Some "ChangePrefixMatcher") false false (bare None);
  R "torch.greater_equal" (Some "ChangePrefixMatcher") false false (bare None);
  R "torch.group_norm" (Some "ChangePrefixMatcher") false false (bare None);
  R "torch.gt" (Some "ChangePrefixMatcher") false false (bare None);
  R "torch.hamming_window" (Some "ChangePrefixMatcher") false false (bare None);
  R "torch.hann_window" (Some "ChangePrefixMatcher") false false (bare None);
  R "torch.heaviside" (Some "ChangePrefixMatcher") false false (bare None);
  R "torch.hinge_embedding_loss" None false false (bare None);
  R "torch.histc" (Some "ChangePrefixMatcher") false false (bare None);
  R "torch.histogram" (Some "HistogramMatcher") false false (MkEntry ["input"; "bins"; "*"; "range"; "weight"; "density"; "out"] [] 2 [] [("range", TList ["min"; "max"])] [] (Some "paddle.histogram"));
  R "torch.histogramdd" (Some "GenericMatcher") false false (MkEntry ["input"; "bins"; "*"; "range"; "weight"; "density"] [] 2 [] [("input", TName "x"); ("range", TName "ranges"); ("weight", TName "weights")] [] (Some "paddle.histogramdd"));
  R "torch.hsplit" (Some "GenericMatcher") false false (MkEntry ["input"; "indices"] ["sections"] 0 [] [("input", TName "x"); ("indices", TName "num_or_indices"); ("sections", TName "num_or_indices")] [] (Some "paddle.hsplit"));
  R "torch.hstack" (Some "ChangePrefixMatcher") false false (bare None);
  R "torch.hub.download_url_to_file" (Some "GenericMatcher") false false (MkEntry ["url"; "dst"; "hash_prefix"; "progress"] [] 2 [] [("dst", TNone); ("hash_prefix", TNone); ("progress", TNone)] [] (Some "paddle.utils.download.get_weights_path_from_url"));
  R "torch.hub.help" (Some "GenericMatcher") false false (MkEntry ["github"; "model"; "force_reload"; "skip_validation"; "trust_repo"] [] 2 [] [("github", TName "repo_dir"); ("skip_validation", TNone); ("trust_repo", TNone)] [] (Some "paddle.hub.help"));
  R "torch.hub.list" (Some "GenericMatcher") false false (MkEntry ["github"; "force_reload"; "skip_validation"; "trust_repo"] [] 1 [] [("github", TName "repo_dir"); ("skip_validation", TNone); ("trust_repo", TNone)] [] (Some "paddle.hub.list"));
  R "torch.hub.load" (Some "HubLoadMatcher") false false (MkEntry [] [] 2 [] [] [] (Some "paddle.hub.load"));
  R "torch.hub.load_state_dict_from_url" (Some "GenericMatcher") false false (MkEntry ["url"; "model_dir"; "map_location"; "progress"; "check_hash"; "file_name"; "weights_only"] [] 1 [] [("progress", TNone); ("weights_only", TNone)] [] (Some "paddle.hub.load_state_dict_from_url"));
  R "torch.hypot" (Some "ChangePrefixMatcher") false false (bare None);
  R "torch.i0" (Some "ChangePrefixMatcher") false false (bare None);
  R "torch.iinfo" (Some "ChangePrefixMatcher") false false (bare None);
  R "torch.imag" (Some "ChangePrefixMatcher") false false (bare None);
  R "torch.index_add" (Some "ChangePrefixMatcher") false false (bare None);
  R "torch.index_copy" (Some "IndexCopyMatcher") false false (MkEntry ["input"; "dim"; "index"; "source"; "*"; "out"] [] 4 [] [] [] None);
  R "torch.index_fill" (Some "ChangePrefixMatcher") false false (bare None);
  R "torch.index_put" (Some "ChangePrefixMatcher") false false (bare None);
  R "torch.index_select" (Some "ChangePrefixMatcher") false false (bare None);
  R "torch.inference_mode" (Some "ChangePrefixMatcher") false false (bare None);
  R "torch.initial_seed" (Some "ChangePrefixMatcher") false false (bare None);
  R "torch.inner" (Some "ChangePrefixMatcher") false false (bare None);
  R "torch.instance_norm" None false false (bare None);
  R "torch.inverse" (Some "ChangePrefixMatcher") false false (bare None);
  R "torch.is_autocast_enabled" (Some "ChangePrefixMatcher") false false (bare None);
  R "torch.is_complex" (Some "ChangePrefixMatcher") false false (bare None);
  R "torch.is_floating_point" (Some "ChangePrefixMatcher") false false (bare None);
  R "torch.is_grad_enabled" (Some "ChangePrefixMatcher") false false (bare None);
  R "torch.is_inference" (Some "Is_InferenceMatcher") false false (MkEntry ["input"] [] 1 [] [] [] (Some "paddle.Tensor.stop_gradient"));
  R "torch.is_nonzero" (Some "IsNonzeroMatcher") false false (MkEntry ["input"] [] 1 [] [] [] None);
  R "torch.is_tensor" (Some "ChangePrefixMatcher") false false (bare None);
  R "torch.isclose" (Some "ChangePrefixMatcher") false false (bare None);
  R "torch.isfinite" (Some "ChangePrefixMatcher") false false (bare None);
  R "torch.isin" (Some "ChangePrefixMatcher") false false (bare None);
  R "torch.isinf" (Some "ChangePrefixMatcher") false false (bare None);
  R "torch.isnan" (Some "ChangePrefixMatcher") false false (bare None);
  R "torch.isneginf" (Some "ChangePrefixMatcher") false false (bare None);
  R "torch.isposinf" (Some "ChangePrefixMatcher") false false (bare None);
  R "torch.isreal" (Some "ChangePrefixMatcher") false false (bare None);
  R "torch.istft" (Some "GenericMatcher") false false (MkEntry ["input"; "n_fft"; "hop_length"; "win_length"; "window"; "center"; "normalized"; "onesided"; "length"; "return_complex"] [] 2 [] [("input", TName "x")] [] (Some "paddle.signal.istft"));
  R "torch.jit.ignore" (Some "GenericMatcher") false false (MkEntry ["drop"; "**kwargs"] [] 0 ["drop"] [] [] (Some "paddle.jit.not_to_static"));
  R "torch.jit.load" (Some "GenericMatcher") false false (MkEntry ["f"; "map_location"; "_extra_files"] [] 0 ["map_location"; "_extra_files"] [("f", TName "path")] [] (Some "paddle.jit.load"));
  R "torch.jit.save" (Some "JitSaveMatcher") false false (MkEntry ["m"; "f"; "_extra_files"] [] 1 ["_extra_files"] [("m", TName "layer"); ("f", TName "path")] [] (Some "paddle.jit.save"));
  R "torch.jit.script" (Some "GenericMatcher") false false (MkEntry ["obj"; "optimize"; "_frames_up"; "_rcb"; "example_inputs"] [] 0 [] [("obj", TName "function"); ("optimize", TNone); ("_frames_up", TNone); ("_rcb", TNone); ("example_inputs", TName "input_spec")] [] (Some "paddle.jit.to_static"));
  R "torch.kaiser_window" (Some "ChangePrefixMatcher") false false (bare None);
  R "torch.kl_div" None false false (bare None);
  R "torch.kron" (Some "ChangePrefixMatcher") false false (bare None);
  R "torch.kthvalue" (Some "ChangePrefixMatcher") false false (bare None);
  R "torch.layer_norm" (Some "ChangePrefixMatcher") false false (bare None);
  R "torch.lcm" (Some "ChangePrefixMatcher") false false (bare None);
  R "torch.ldexp" (Some "ChangePrefixMatcher") false false (bare None);
  R "torch.le" (Some "ChangePrefixMatcher") false false (bare None);
  R "torch.lerp" (Some "ChangePrefixMatcher") false false (bare None);
  R "torch.less" (Some "ChangePrefixMatcher") false false (bare None);
  R "torch.less_equal" (Some "ChangePrefixMatcher") false false (bare None);
  R "torch.lgamma" (Some "GenericMatcher") false false (MkEntry ["input"; "*"; "out"] [] 1 [] [("input", TName "x")] [] (Some "paddle.lgamma"));
  R "torch.linalg.cholesky" (Some "ChangePrefixMatcher") false false (bare None);
  R "torch.linalg.cholesky_ex" (Some "LinalgCholeskyExMatcher") false false (MkEntry ["input"; "*"; "upper"; "check_errors"; "out"] [] 1 [] [("input", TName "x")] [] (Some "paddle.linalg.cholesky"));
  R "torch.linalg.cond" (Some "GenericMatcher") false false (MkEntry ["input"; "p"; "*"; "out"] [] 1 [] [("input", TName "x")] [] (Some "paddle.linalg.cond"));
  R "torch.linalg.cross" (Some "ChangePrefixMatcher") false false (bare None);
  R "torch.linalg.det" (Some "ChangePrefixMatcher") false false (bare None);
  R "torch.linalg.diagonal" (Some "GenericMatcher") false false (MkEntry ["A"; "*"; "offset"; "dim1"; "dim2"] [] 1 [] [("A", TName "x"); ("dim1", TName "axis1"); ("dim2", TName "axis2")] [("axis1", "-2"); ("axis2", "-1")] (Some "paddle.diagonal"));
  R "torch.linalg.eig" (Some "DoubleAssignMatcher") false false (MkEntry ["input"; "*"; "out"] [] 1 [] [("input", TName "x")] [] (Some "paddle.linalg.eig"));
  R "torch.linalg.eigh" (Some "ChangePrefixMatcher") false false (bare None);
  R "torch.linalg.eigvals" (Some "GenericMatcher") false false (MkEntry ["input"; "*"; "out"] [] 1 [] [("input", TName "x")] [] (Some "paddle.linalg.eigvals"));
  R "torch.linalg.eigvalsh" (Some "GenericMatcher") false false (MkEntry ["input"; "UPLO"; "*"; "out"] [] 1 [] [("input", TName "x")] [] (Some "paddle.linalg.eigvalsh"));
  R "torch.linalg.householder_product" (Some "GenericMatcher") false false (MkEntry ["input"; "tau"; "*"; "out"] [] 2 [] [("input", TName "x")] [] (Some "paddle.linalg.householder_product"));
  R "torch.linalg.inv" (Some "ChangePrefixMatcher") false false (bare None);
  R "torch.linalg.inv_ex" (Some "LinalgInvExMatcher") false false (MkEntry ["A"; "*"; "check_errors"; "out"] [] 1 [] [("A", TName "x")] [] (Some "paddle.linalg.inv"));
  R "torch.linalg.ldl_factor" None false false (bare None)].

Definition api_mapping_11 : list row := [
  R "torch.linalg.ldl_factor_ex" None false false (bare None);
  R "torch.linalg.ldl_solve" None false false (bare None);
  R "torch.linalg.lstsq" (Some "GenericMatcher") false false (MkEntry ["input"; "b"; "rcond"; "*"; "driver"] [] 2 [] [("input", TName "x"); ("b", TName "y")] [] (Some "paddle.linalg.lstsq"));
  R "torch.linalg.lu" (Some "LinalgLuMatcher") false false (MkEntry ["A"; "*"; "pivot"; "out"] [] 1 [] [("A", TName "x")] [] (Some "paddle.linalg.lu"));
  R "torch.linalg.lu_factor" (Some "DoubleAssignMatcher") false false (MkEntry ["A"; "*"; "pivot"; "out"] [] 1 [] [("A", TName "x")] [] (Some "paddle.linalg.lu"));
  R "torch.linalg.lu_factor_ex" (Some "TripleAssignMatcher") false false (MkEntry ["A"; "*"; "pivot"; "check_errors"; "out"] [] 1 [] [("A", TName "x"); ("check_errors", TNone)] [("get_infos", "True")] (Some "paddle.linalg.lu"));
  R "torch.linalg.lu_solve" (Some "LinalgLuSolveMatcher") false false (MkEntry ["LU"; "pivots"; "B"; "*"; "left"; "adjoint"; "out"] [] 3 [] [("LU", TName "lu"); ("B", TName "b")] [] (Some "paddle.linalg.lu_solve"));
  R "torch.linalg.matmul" (Some "ChangePrefixMatcher") false false (bare None);
  R "torch.linalg.matrix_exp" None false false (bare None);
  R "torch.linalg.matrix_norm" (Some "GenericMatcher") false false (MkEntry ["input"; "ord"; "dim"; "keepdim"; "*"; "dtype"; "out"] [] 1 [] [("input", TName "x"); ("ord", TName "p"); ("dim", TName "axis")] [] (Some "paddle.linalg.matrix_norm"));
  R "torch.linalg.matrix_power" (Some "GenericMatcher") false false (MkEntry ["input"; "n"; "*"; "out"] [] 2 [] [("input", TName "x")] [] (Some "paddle.linalg.matrix_power"));
  R "torch.linalg.matrix_rank" (Some "GenericMatcher") false false (MkEntry ["input"; "tol"; "hermitian"; "*"; "atol"; "rtol"; "hermitian"; "out"] [] 1 [] [("input", TName "x")] [] (Some "paddle.linalg.matrix_rank"));
  R "torch.linalg.multi_dot" (Some "GenericMatcher") false false (MkEntry ["tensors"; "*"; "out"] [] 1 [] [("tensors", TName "x")] [] (Some "paddle.linalg.multi_dot"));
  R "torch.linalg.norm" (Some "ChangePrefixMatcher") false false (bare None);
  R "torch.linalg.pinv" (Some "ChangePrefixMatcher") false false (bare None);
  R "torch.linalg.qr" (Some "ChangePrefixMatcher") false false (bare None);
  R "torch.linalg.slogdet" (Some "SLogDetMatcher") false false (MkEntry ["A"; "*"; "out"] [] 1 [] [] [] (Some "paddle.linalg.slogdet"));
  R "torch.linalg.solve" (Some "ChangePrefixMatcher") false false (bare None);
  R "torch.linalg.solve_ex" None false false (bare None);
  R "torch.linalg.solve_triangular" (Some "LinalgSolveTriangularMatcher") false false (MkEntry ["input"; "B"; "*"; "upper"; "left"; "unitriangular"; "out"] [] 2 [] [("input", TName "x"); ("B", TName "y"); ("left", TName "transpose")] [] (Some "paddle.linalg.triangular_solve"));
  R "torch.linalg.svd" (Some "TripleAssignMatcher") false false (MkEntry ["A"; "full_matrices"; "*"; "driver"; "out"] [] 1 [] [("A", TName "x"); ("driver", TNone)] [("full_matrices", "True")] (Some "paddle.linalg.svd"));
  R "torch.linalg.svdvals" (Some "GenericMatcher") false false (MkEntry ["A"; "*"; "driver"; "out"] [] 1 [] [("A", TName "x"); ("driver", TNone)] [] (Some "paddle.linalg.svdvals"));
  R "torch.linalg.tensorinv" None false false (bare None);
  R "torch.linalg.tensorsolve" None false false (bare None);
  R "torch.linalg.vander" (Some "GenericMatcher") false false (MkEntry ["x"; "*"; "N"] [] 1 [] [("N", TName "n")] [("increasing", "True")] (Some "paddle.vander"));
  R "torch.linalg.vecdot" (Some "GenericMatcher") false false (MkEntry ["x"; "y"; "*"; "dim"; "out"] [] 1 [] [("dim", TName "axis")] [] (Some "paddle.linalg.vecdot"));
  R "torch.linalg.vector_norm" (Some "ChangePrefixMatcher") false false (bare None);
  R "torch.linspace" (Some "ChangePrefixMatcher") false false (bare None);
  R "torch.load" (Some "LoadMatcher") false false (MkEntry ["f"; "map_location"; "pickle_module"; "*"; "weights_only"; "mmap"; "**pickle_load_args"] [] 1 ["mmap"] [("f", TName "path"); ("map_location", TNone); ("pickle_module", TNone); ("weights_only", TNone); ("pickle_load_args", TNone)] [] (Some "paddle.load"));
  R "torch.log" (Some "ChangePrefixMatcher") false false (bare None);
  R "torch.log10" (Some "ChangePrefixMatcher") false false (bare None);
  R "torch.log1p" (Some "ChangePrefixMatcher") false false (bare None);
  R "torch.log2" (Some "ChangePrefixMatcher") false false (bare None);
  R "torch.log_softmax" (Some "ChangePrefixMatcher") false false (bare None);
  R "torch.logaddexp" (Some "ChangePrefixMatcher") false false (bare None);
  R "torch.logaddexp2" (Some "LogAddExp2Matcher") false false (MkEntry ["input"; "other"; "*"; "out"] [] 2 [] [] [] None);
  R "torch.logcumsumexp" (Some "ChangePrefixMatcher") false false (bare None);
  R "torch.logdet" (Some "ChangePrefixMatcher") false false (bare None);
  R "torch.logical_and" (Some "ChangePrefixMatcher") false false (bare None);
  R "torch.logical_not" (Some "ChangePrefixMatcher") false false (bare None);
  R "torch.logical_or" (Some "ChangePrefixMatcher") false false (bare None);
  R "torch.logical_xor" (Some "ChangePrefixMatcher") false false (bare None);
  R "torch.logit" (Some "ChangePrefixMatcher") false false (bare None);
  R "torch.logspace" (Some "ChangePrefixMatcher") false false (bare None);
  R "torch.logsumexp" (Some "ChangePrefixMatcher") false false (bare None);
  R "torch.lstsq" None false false (MkEntry [] [] 2 [] [] [] None);
  R "torch.lt" (Some "ChangePrefixMatcher") false false (bare None);
  R "torch.lu" (Some "LuMatcher") false false (MkEntry ["A"; "pivot"; "get_infos"; "out"] [] 1 [] [("A", TName "x")] [] (Some "paddle.linalg.lu"));
  R "torch.lu_solve" None false false (bare None);
  R "torch.lu_unpack" (Some "Lu_unpackMatcher") false false (MkEntry ["LU_data"; "LU_pivots"; "unpack_data"; "unpack_pivots"; "*"; "out"] [] 2 [] [("LU_data", TName "x"); ("LU_pivots", TName "y"); ("unpack_data", TName "unpack_ludata")] [] (Some "paddle.linalg.lu_unpack"));
  R "torch.manual_seed" (Some "ChangePrefixMatcher") false false (bare None);
  R "torch.margin_ranking_loss" None false false (bare None);
  R "torch.masked_fill" (Some "ChangePrefixMatcher") false false (bare None);
  R "torch.masked_select" (Some "ChangePrefixMatcher") false false (bare None);
  R "torch.matmul" (Some "ChangePrefixMatcher") false false (bare None);
  R "torch.matrix_rank" None false false (MkEntry [] [] 1 [] [] [] None);
  R "torch.max" (Some "ChangeAPIMatcher") false false (bare (Some "paddle.compat.max"));
  R "torch.max_pool1d" (Some "ChangeAPIMatcher") false false (bare (Some "paddle.nn.functional.max_pool1d"));
  R "torch.max_pool2d" (Some "ChangeAPIMatcher") false false (bare (Some "paddle.nn.functional.max_pool2d"));
  R "torch.max_pool3d" (Some "ChangeAPIMatcher") false false (bare (Some "paddle.nn.functional.max_pool3d"));
  R "torch.maximum" (Some "ChangePrefixMatcher") false false (bare None);
  R "torch.mean" (Some "ChangePrefixMatcher") false false (bare None);
  R "torch.median" (Some "ChangeAPIMatcher") false false (bare (Some "paddle.compat.median"));
  R "torch.meshgrid" (Some "ChangePrefixMatcher") false false (bare None);
  R "torch.min" (Some "ChangeAPIMatcher") false false (bare (Some "paddle.compat.min"));
  R "torch.minimum" (Some "ChangePrefixMatcher") false false (bare None);
  R "torch.mm" (Some "ChangePrefixMatcher") false false (bare None);
  R "torch.mode" (Some "ChangePrefixMatcher") false false (bare None);
  R "torch.moveaxis" (Some "ChangePrefixMatcher") false false (bare None);
  R "torch.movedim" (Some "ChangePrefixMatcher") false false (bare None);
  R "torch.msort" (Some "ChangePrefixMatcher") false false (bare None);
  R "torch.mul" (Some "ChangePrefixMatcher") false false (bare None);
  R "torch.multinomial" (Some "ChangePrefixMatcher") false false (bare None);
  R "torch.multiply" (Some "ChangePrefixMatcher") false false (bare None);
  R "torch.multiprocessing.cpu_count" (Some "MPCpuCountMatcher") false false (bare None);
  R "torch.multiprocessing.spawn" (Some "GenericMatcher") false false (MkEntry ["fn"; "args"; "nprocs"; "join"; "daemon"; "start_method"] [] 1 [] [("fn", TName "func"); ("start_method", TNone)] [("nprocs", "1")] (Some "paddle.distributed.spawn"));
  R "torch.mv" (Some "ChangePrefixMatcher") false false (bare None);
  R "torch.mvlgamma" (Some "GenericMatcher") false false (MkEntry ["input"; "p"; "*"; "out"] [] 2 [] [("input", TName "x")] [] (Some "paddle.multigammaln"));
  R "torch.nan_to_num" (Some "ChangePrefixMatcher") false false (bare None);
  R "torch.nanmean" (Some "ChangePrefixMatcher") false false (bare None);
  R "torch.nanmedian" (Some "ChangeAPIMatcher") false false (bare (Some "paddle.compat.nanmedian"));
  R "torch.nanquantile" (Some "ChangePrefixMatcher") false false (bare None);
  R "torch.nansum" (Some "ChangePrefixMatcher") false false (bare None);
  R "torch.narrow" (Some "ChangePrefixMatcher") false false (bare None);
  R "torch.narrow_copy" (Some "NarrowCopyMatcher") false false (MkEntry ["input"; "dim"; "start"; "length"; "*"; "out"] [] 4 [] [] [] None);
  R "torch.ne" (Some "ChangePrefixMatcher") false false (bare None);
  R "torch.neg" (Some "ChangePrefixMatcher") false false (bare None);
  R "torch.negative" (Some "GenericMatcher") false false (MkEntry ["input"; "*"; "out"] [] 1 [] [("input", TName "x")] [] (Some "paddle.neg"));
  R "torch.nextafter" (Some "ChangePrefixMatcher") false false (bare None);
  R "torch.nn.AdaptiveAvgPool1d" (Some "ChangePrefixMatcher") false false (bare None);
  R "torch.nn.AdaptiveAvgPool2d" (Some "ChangePrefixMatcher") false false (bare None);
  R "torch.nn.AdaptiveAvgPool3d" (Some "ChangePrefixMatcher") false false (bare None);
  R "torch.nn.AdaptiveLogSoftmaxWithLoss" (Some "ChangePrefixMatcher") false false (bare None);
  R "torch.nn.AdaptiveMaxPool1d" (Some "ChangePrefixMatcher") false false (bare None);
  R "torch.nn.AdaptiveMaxPool2d" (Some "ChangePrefixMatcher") false false (bare None);
  R "torch.nn.AdaptiveMaxPool3d" (Some "ChangePrefixMatcher") false false (bare None);
  R "torch.nn.AlphaDropout" (Some "GenericMatcher") false false (MkEntry ["p"; "inplace"] [] 0 [] [] [] (Some "paddle.nn.AlphaDropout"));
  R "torch.nn.AvgPool1d" (Some "ChangeAPIMatcher") false false (bare (Some "paddle.compat.nn.AvgPool1d"));
  R "torch.nn.AvgPool2d" (Some "ChangeAPIMatcher") false false (bare (Some "paddle.compat.nn.AvgPool2d"));
  R "torch.nn.AvgPool3d" (Some "ChangeAPIMatcher") false false (bare (Some "paddle.compat.nn.AvgPool3d"))].

Definition api_mapping_12 : list row := [
  R "torch.nn.BCELoss" (Some "ChangePrefixMatcher") false false (bare None);
  R "torch.nn.BCEWithLogitsLoss" (Some "ChangePrefixMatcher") false false (bare None);
  R "torch.nn.BatchNorm1d" (Some "ChangeAPIMatcher") false false (bare (Some "paddle.compat.nn.BatchNorm1d"));
  R "torch.nn.BatchNorm2d" (Some "ChangeAPIMatcher") false false (bare (Some "paddle.compat.nn.BatchNorm2d"));
  R "torch.nn.BatchNorm3d" (Some "ChangeAPIMatcher") false false (bare (Some "paddle.compat.nn.BatchNorm3d"));
  R "torch.nn.Bilinear" (Some "GenericMatcher") false false (MkEntry ["in1_features"; "in2_features"; "out_features"; "bias"; "device"; "dtype"] [] 3 [] [("bias", TName "bias_attr"); ("device", TNone); ("dtype", TNone)] [] (Some "paddle.nn.Bilinear"));
  R "torch.nn.CELU" (Some "GenericMatcher") false false (MkEntry ["alpha"; "inplace"] [] 0 [] [] [] (Some "paddle.nn.CELU"));
  R "torch.nn.ChannelShuffle" (Some "ChangePrefixMatcher") false false (bare None);
  R "torch.nn.CircularPad1d" (Some "ChangePrefixMatcher") false false (bare None);
  R "torch.nn.CircularPad2d" (Some "ChangePrefixMatcher") false false (bare None);
  R "torch.nn.CircularPad3d" (Some "ChangePrefixMatcher") false false (bare None);
  R "torch.nn.ConstantPad1d" (Some "ChangePrefixMatcher") false false (bare None);
  R "torch.nn.ConstantPad2d" (Some "ChangePrefixMatcher") false false (bare None);
  R "torch.nn.ConstantPad3d" (Some "ChangePrefixMatcher") false false (bare None);
  R "torch.nn.Conv1d" (Some "ChangePrefixMatcher") false false (bare None);
  R "torch.nn.Conv2d" (Some "ChangePrefixMatcher") false false (bare None);
  R "torch.nn.Conv3d" (Some "ChangePrefixMatcher") false false (bare None);
  R "torch.nn.ConvTranspose1d" (Some "ChangePrefixMatcher") false false (bare None);
  R "torch.nn.ConvTranspose2d" (Some "ChangePrefixMatcher") false false (bare None);
  R "torch.nn.ConvTranspose3d" (Some "ChangePrefixMatcher") false false (bare None);
  R "torch.nn.CosineEmbeddingLoss" (Some "ChangePrefixMatcher") false false (bare None);
  R "torch.nn.CosineSimilarity" (Some "ChangePrefixMatcher") false false (bare None);
  R "torch.nn.CrossEntropyLoss" (Some "ChangePrefixMatcher") false false (bare None);
  R "torch.nn.DataParallel" (Some "GenericMatcher") false false (MkEntry ["module"; "device_ids"; "output_device"; "dim"] [] 0 ["dim"] [("module", TName "layers"); ("device_ids", TNone); ("output_device", TNone)] [] (Some "paddle.DataParallel"));
  R "torch.nn.Dropout" (Some "ChangePrefixMatcher") false false (bare None);
  R "torch.nn.Dropout1d" (Some "GenericMatcher") false false (MkEntry ["p"; "inplace"] [] 0 [] [] [] (Some "paddle.nn.Dropout"));
  R "torch.nn.Dropout2d" (Some "GenericMatcher") false false (MkEntry ["p"; "inplace"] [] 0 [] [] [] (Some "paddle.nn.Dropout2D"));
  R "torch.nn.Dropout3d" (Some "GenericMatcher") false false (MkEntry ["p"; "inplace"] [] 0 [] [] [] (Some "paddle.nn.Dropout3D"));
  R "torch.nn.ELU" (Some "ChangePrefixMatcher") false false (bare None);
  R "torch.nn.Embedding" (Some "ChangePrefixMatcher") false false (bare None);
  R "torch.nn.FeatureAlphaDropout" (Some "GenericMatcher") false false (MkEntry ["p"; "inplace"] [] 0 [] [] [] (Some "paddle.nn.FeatureAlphaDropout"));
  R "torch.nn.Flatten" (Some "ChangePrefixMatcher") false false (bare None);
  R "torch.nn.Fold" (Some "ChangePrefixMatcher") false false (bare None);
  R "torch.nn.FractionalMaxPool2d" (Some "GenericMatcher") false false (MkEntry ["kernel_size"; "output_size"; "output_ratio"; "return_indices"; "_random_samples"] [] 1 ["output_ratio"; "_random_samples"] [] [] (Some "paddle.nn.FractionalMaxPool2D"));
  R "torch.nn.FractionalMaxPool3d" (Some "GenericMatcher") false false (MkEntry ["kernel_size"; "output_size"; "output_ratio"; "return_indices"; "_random_samples"] [] 1 ["output_ratio"; "_random_samples"] [] [] (Some "paddle.nn.FractionalMaxPool3D"));
  R "torch.nn.GELU" (Some "ChangePrefixMatcher") false false (bare None);
  R "torch.nn.GLU" (Some "ChangePrefixMatcher") false false (bare None);
  R "torch.nn.GRU" (Some "ChangePrefixMatcher") false false (bare None);
  R "torch.nn.GRUCell" (Some "GRUCellMatcher") false false (MkEntry ["input_size"; "hidden_size"; "bias"; "device"; "dtype"] [] 2 [] [("bias", TList ["bias_ih_attr"; "bias_hh_attr"]); ("device", TNone); ("dtype", TNone)] [] (Some "paddle.nn.GRUCell"));
  R "torch.nn.GaussianNLLLoss" (Some "ChangePrefixMatcher") false false (bare None);
  R "torch.nn.GroupNorm" (Some "ChangePrefixMatcher") false false (bare None);
  R "torch.nn.Hardshrink" (Some "ChangePrefixMatcher") false false (bare None);
  R "torch.nn.Hardsigmoid" (Some "GenericMatcher") false false (MkEntry ["inplace"] [] 0 [] [] [] (Some "paddle.nn.Hardsigmoid"));
  R "torch.nn.Hardswish" (Some "ChangePrefixMatcher") false false (bare None);
  R "torch.nn.Hardtanh" (Some "GenericMatcher") false false (MkEntry ["min_val"; "max_val"; "inplace"] [] 0 [] [("min_val", TName "min"); ("max_val", TName "max")] [] (Some "paddle.nn.Hardtanh"));
  R "torch.nn.HingeEmbeddingLoss" (Some "ChangePrefixMatcher") false false (bare None);
  R "torch.nn.HuberLoss" (Some "ChangePrefixMatcher") false false (bare None);
  R "torch.nn.Identity" (Some "ChangePrefixMatcher") false false (bare None);
  R "torch.nn.InstanceNorm1d" (Some "ReverseMomentumMatcher") false false (MkEntry ["num_features"; "eps"; "momentum"; "affine"; "track_running_stats"; "device"; "dtype"] [] 1 [] [("eps", TName "epsilon"); ("affine", TList ["weight_attr"; "bias_attr"]); ("track_running_stats", TNone); ("device", TNone); ("dtype", TNone)] [] (Some "paddle.nn.InstanceNorm1D"));
  R "torch.nn.InstanceNorm2d" (Some "ReverseMomentumMatcher") false false (MkEntry ["num_features"; "eps"; "momentum"; "affine"; "track_running_stats"; "device"; "dtype"] [] 1 [] [("eps", TName "epsilon"); ("affine", TList ["weight_attr"; "bias_attr"]); ("track_running_stats", TNone); ("device", TNone); ("dtype", TNone)] [] (Some "paddle.nn.InstanceNorm2D"));
  R "torch.nn.InstanceNorm3d" (Some "ReverseMomentumMatcher") false false (MkEntry ["num_features"; "eps"; "momentum"; "affine"; "track_running_stats"; "device"; "dtype"] [] 1 [] [("eps", TName "epsilon"); ("affine", TList ["weight_attr"; "bias_attr"]); ("track_running_stats", TNone); ("device", TNone); ("dtype", TNone)] [] (Some "paddle.nn.InstanceNorm3D"));
  R "torch.nn.KLDivLoss" (Some "ChangePrefixMatcher") false false (bare None);
  R "torch.nn.L1Loss" (Some "ChangePrefixMatcher") false false (bare None);
  R "torch.nn.LPPool1d" (Some "ChangePrefixMatcher") false false (bare None);
  R "torch.nn.LPPool2d" (Some "ChangePrefixMatcher") false false (bare None);
  R "torch.nn.LSTM" (Some "RNNMatcher") false false (MkEntry ["input_size"; "hidden_size"; "num_layers"; "bias"; "batch_first"; "dropout"; "bidirectional"; "proj_size"; "device"; "dtype"] [] 2 [] [("bias", TList ["bias_ih_attr"; "bias_hh_attr"]); ("device", TNone); ("dtype", TNone)] [] (Some "paddle.nn.LSTM"));
  R "torch.nn.LSTMCell" (Some "LSTMCellMatcher") false false (MkEntry ["input_size"; "hidden_size"; "bias"; "device"; "dtype"] [] 2 [] [("bias", TList ["bias_ih_attr"; "bias_hh_attr"]); ("device", TNone); ("dtype", TNone)] [] (Some "paddle.nn.LSTMCell"));
  R "torch.nn.LayerNorm" (Some "ChangePrefixMatcher") false false (bare None);
  R "torch.nn.LeakyReLU" (Some "ChangePrefixMatcher") false false (bare None);
  R "torch.nn.Linear" (Some "ChangeAPIMatcher") false false (bare (Some "paddle.compat.nn.Linear"));
  R "torch.nn.LocalResponseNorm" (Some "ChangePrefixMatcher") false false (bare None);
  R "torch.nn.LogSigmoid" (Some "ChangePrefixMatcher") false false (bare None);
  R "torch.nn.LogSoftmax" (Some "LogSoftmaxMatcher") false false (MkEntry ["dim"] [] 0 [] [("dim", TName "axis")] [("axis", "0")] (Some "paddle.nn.LogSoftmax"));
  R "torch.nn.MSELoss" (Some "ChangePrefixMatcher") false false (bare None);
  R "torch.nn.MarginRankingLoss" (Some "ChangePrefixMatcher") false false (bare None);
  R "torch.nn.MaxPool1d" (Some "ChangePrefixMatcher") false false (bare None);
  R "torch.nn.MaxPool2d" (Some "ChangePrefixMatcher") false false (bare None);
  R "torch.nn.MaxPool3d" (Some "ChangePrefixMatcher") false false (bare None);
  R "torch.nn.MaxUnpool1d" (Some "ChangePrefixMatcher") false false (bare None);
  R "torch.nn.MaxUnpool2d" (Some "ChangePrefixMatcher") false false (bare None);
  R "torch.nn.MaxUnpool3d" (Some "ChangePrefixMatcher") false false (bare None);
  R "torch.nn.Mish" (Some "GenericMatcher") false false (MkEntry ["inplace"] [] 0 [] [] [] (Some "paddle.nn.Mish"));
  R "torch.nn.Module" (Some "ChangePrefixMatcher") false false (bare None);
  R "torch.nn.Module.add_module" (Some "ChangePrefixMatcher") false false (bare None);
  R "torch.nn.Module.apply" (Some "ChangePrefixMatcher") false false (bare None);
  R "torch.nn.Module.bfloat16" (Some "ChangePrefixMatcher") false false (bare None);
  R "torch.nn.Module.buffers" (Some "ChangePrefixMatcher") false false (bare None);
  R "torch.nn.Module.children" (Some "ChangePrefixMatcher") false false (bare None);
  R "torch.nn.Module.cpu" (Some "ChangePrefixMatcher") false false (bare None);
  R "torch.nn.Module.cuda" (Some "ChangePrefixMatcher") false false (bare None);
  R "torch.nn.Module.double" (Some "ChangePrefixMatcher") false false (bare None);
  R "torch.nn.Module.eval" (Some "ChangePrefixMatcher") false false (bare None);
  R "torch.nn.Module.float" (Some "ChangePrefixMatcher") false false (bare None);
  R "torch.nn.Module.get_buffer" (Some "ChangePrefixMatcher") false false (bare None);
  R "torch.nn.Module.get_extra_state" (Some "ChangePrefixMatcher") false false (bare None);
  R "torch.nn.Module.get_parameter" (Some "ChangePrefixMatcher") false false (bare None);
  R "torch.nn.Module.get_submodule" (Some "ChangePrefixMatcher") false false (bare None);
  R "torch.nn.Module.half" (Some "ChangePrefixMatcher") false false (bare None);
  R "torch.nn.Module.ipu" None false false (bare None);
  R "torch.nn.Module.load_state_dict" (Some "ChangePrefixMatcher") false false (bare None);
  R "torch.nn.Module.modules" (Some "ChangePrefixMatcher") false false (bare None);
  R "torch.nn.Module.named_buffers" (Some "ChangePrefixMatcher") false false (bare None);
  R "torch.nn.Module.named_children" (Some "ChangePrefixMatcher") false false (bare None);
  R "torch.nn.Module.named_modules" (Some "ChangePrefixMatcher") false false (bare None);
  R "torch.nn.Module.named_parameters" (Some "ChangePrefixMatcher") false false (bare None);
  R "torch.nn.Module.parameters" (Some "ChangePrefixMatcher") false false (bare None);
  R "torch.nn.Module.register_backward_hook" None false false (MkEntry [] [] 1 [] [] [] None);
  R "torch.nn.Module.register_buffer" (Some "ChangePrefixMatcher") false false (bare None);
  R "torch.nn.Module.register_forward_hook" (Some "GenericMatcher") false false (MkEntry ["hook"; "*"; "prepend"; "with_kwargs"; "always_call"] [] 1 ["prepend"; "with_kwargs"; "always_call"] [] [] (Some "paddle.nn.Module.register_forward_post_hook"));
  R "torch.nn.Module.register_forward_pre_hook" (Some "GenericMatcher") false false (MkEntry ["hook"; "*"; "prepend"; "with_kwargs"] [] 1 ["prepend"; "with_kwargs"] [] [] (Some "paddle.nn.Module.register_forward_pre_hook"))].

Definition api_mapping_13 : list row := [
  R "torch.nn.Module.register_full_backward_hook" None false false (MkEntry [] [] 1 [] [] [] None);
  R "torch.nn.Module.register_full_backward_pre_hook" None false false (MkEntry [] [] 1 [] [] [] None);
  R "torch.nn.Module.register_load_state_dict_post_hook" None false false (MkEntry [] [] 1 [] [] [] None);
  R "torch.nn.Module.register_module" (Some "ChangePrefixMatcher") false false (bare None);
  R "torch.nn.Module.register_parameter" (Some "ChangePrefixMatcher") false false (bare None);
  R "torch.nn.Module.requires_grad_" (Some "ChangePrefixMatcher") false false (bare None);
  R "torch.nn.Module.set_extra_state" (Some "ChangePrefixMatcher") false false (bare None);
  R "torch.nn.Module.share_memory" None false false (bare None);
  R "torch.nn.Module.state_dict" (Some "ChangePrefixMatcher") false false (bare None);
  R "torch.nn.Module.to" (Some "ChangePrefixMatcher") false false (bare None);
  R "torch.nn.Module.to_empty" (Some "ChangePrefixMatcher") false false (bare None);
  R "torch.nn.Module.train" (Some "ChangePrefixMatcher") false false (bare None);
  R "torch.nn.Module.type" (Some "ChangePrefixMatcher") false false (bare None);
  R "torch.nn.Module.xpu" (Some "ChangePrefixMatcher") false false (bare None);
  R "torch.nn.Module.zero_grad" (Some "ChangePrefixMatcher") false false (bare None);
  R "torch.nn.ModuleDict" (Some "ChangePrefixMatcher") false false (bare None);
  R "torch.nn.ModuleList" (Some "ChangePrefixMatcher") false false (bare None);
  R "torch.nn.MultiLabelMarginLoss" (Some "ChangePrefixMatcher") false false (bare None);
  R "torch.nn.MultiLabelSoftMarginLoss" (Some "ChangePrefixMatcher") false false (bare None);
  R "torch.nn.MultiMarginLoss" (Some "ChangePrefixMatcher") false false (bare None);
  R "torch.nn.MultiheadAttention" (Some "ChangeAPIMatcher") false false (bare (Some "paddle.compat.nn.MultiheadAttention"));
  R "torch.nn.NLLLoss" (Some "ChangePrefixMatcher") false false (bare None);
  R "torch.nn.PReLU" (Some "GenericMatcher") false false (MkEntry ["num_parameters"; "init"; "device"; "dtype"] [] 0 [] [("device", TNone); ("dtype", TNone)] [] (Some "paddle.nn.PReLU"));
  R "torch.nn.PairwiseDistance" (Some "ChangePrefixMatcher") false false (bare None);
  R "torch.nn.Parameter" (Some "ChangePrefixMatcher") false false (bare None);
  R "torch.nn.ParameterDict" (Some "ChangePrefixMatcher") false false (bare None);
  R "torch.nn.ParameterList" (Some "ChangePrefixMatcher") false false (bare None);
  R "torch.nn.PixelShuffle" (Some "ChangePrefixMatcher") false false (bare None);
  R "torch.nn.PixelUnshuffle" (Some "ChangePrefixMatcher") false false (bare None);
  R "torch.nn.PoissonNLLLoss" (Some "ChangePrefixMatcher") false false (bare None);
  R "torch.nn.RNN" (Some "RNNMatcher") false false (MkEntry ["input_size"; "hidden_size"; "num_layers"; "nonlinearity"; "bias"; "batch_first"; "dropout"; "bidirectional"; "device"; "dtype"] [] 2 [] [("nonlinearity", TName "activation"); ("bias", TList ["bias_ih_attr"; "bias_hh_attr"]); ("device", TNone); ("dtype", TNone)] [] (Some "paddle.nn.SimpleRNN"));
  R "torch.nn.RNNBase" (Some "RNNBaseMatcher") false false (MkEntry ["mode"; "input_size"; "hidden_size"; "num_layers"; "bias"; "batch_first"; "dropout"; "bidirectional"; "proj_size"; "device"; "dtype"] [] 3 [] [("bias", TList ["bias_ih_attr"; "bias_hh_attr"])] [] (Some "paddle.nn.layer.rnn.RNNBase"));
  R "torch.nn.RNNCell" (Some "RNNCellMatcher") false false (MkEntry ["input_size"; "hidden_size"; "bias"; "nonlinearity"; "device"; "dtype"] [] 2 [] [("bias", TList ["bias_ih_attr"; "bias_hh_attr"]); ("nonlinearity", TName "activation"); ("device", TNone); ("dtype", TNone)] [] (Some "paddle.nn.SimpleRNNCell"));
  R "torch.nn.RReLU" (Some "GenericMatcher") false false (MkEntry ["lower"; "upper"; "inplace"] [] 0 [] [] [] (Some "paddle.nn.RReLU"));
  R "torch.nn.ReLU" (Some "ChangePrefixMatcher") false false (bare None);
  R "torch.nn.ReLU6" (Some "ChangePrefixMatcher") false false (bare None);
  R "torch.nn.ReflectionPad1d" (Some "ChangePrefixMatcher") false false (bare None);
  R "torch.nn.ReflectionPad2d" (Some "ChangePrefixMatcher") false false (bare None);
  R "torch.nn.ReflectionPad3d" (Some "ChangePrefixMatcher") false false (bare None);
  R "torch.nn.ReplicationPad1d" (Some "ChangePrefixMatcher") false false (bare None);
  R "torch.nn.ReplicationPad2d" (Some "ChangePrefixMatcher") false false (bare None);
  R "torch.nn.ReplicationPad3d" (Some "ChangePrefixMatcher") false false (bare None);
  R "torch.nn.SELU" (Some "GenericMatcher") false false (MkEntry ["inplace"] [] 0 [] [] [] (Some "paddle.nn.SELU"));
  R "torch.nn.Sequential" (Some "ChangePrefixMatcher") false false (bare None);
  R "torch.nn.SiLU" (Some "ChangePrefixMatcher") false false (bare None);
  R "torch.nn.Sigmoid" (Some "ChangePrefixMatcher") false false (bare None);
  R "torch.nn.SmoothL1Loss" (Some "ChangeAPIMatcher") false false (MkEntry ["size_average"; "reduce"; "reduction"; "beta"] [] 0 [] [] [] (Some "paddle.compat.nn.SmoothL1Loss"));
  R "torch.nn.SoftMarginLoss" (Some "ChangePrefixMatcher") false false (bare None);
  R "torch.nn.Softmax" (Some "ChangeAPIMatcher") false false (bare (Some "paddle.compat.nn.Softmax"));
  R "torch.nn.Softmax2d" (Some "GenericMatcher") false false (MkEntry [] [] 0 [] [] [("axis", "-3")] (Some "paddle.nn.Softmax"));
  R "torch.nn.Softmin" (Some "SoftminMatcher") false false (MkEntry ["dim"] [] 0 [] [("dim", TName "axis")] [("axis", "None")] (Some "paddle.nn.Softmax"));
  R "torch.nn.Softplus" (Some "ChangePrefixMatcher") false false (bare None);
  R "torch.nn.Softshrink" (Some "ChangePrefixMatcher") false false (bare None);
  R "torch.nn.Softsign" (Some "ChangePrefixMatcher") false false (bare None);
  R "torch.nn.SyncBatchNorm" (Some "ReverseMomentumMatcher") false false (MkEntry ["num_features"; "eps"; "momentum"; "affine"; "track_running_stats"; "process_group"; "device"; "dtype"] [] 1 [] [("eps", TName "epsilon"); ("affine", TList ["weight_attr"; "bias_attr"]); ("track_running_stats", TNone); ("process_group", TNone); ("device", TNone); ("dtype", TNone)] [] (Some "paddle.nn.SyncBatchNorm"));
  R "torch.nn.SyncBatchNorm.convert_sync_batchnorm" (Some "GenericMatcher") false false (MkEntry ["module"; "process_group"] [] 1 ["process_group"] [("module", TName "layer")] [] (Some "paddle.nn.SyncBatchNorm.convert_sync_batchnorm"));
  R "torch.nn.Tanh" (Some "ChangePrefixMatcher") false false (bare None);
  R "torch.nn.Tanhshrink" (Some "ChangePrefixMatcher") false false (bare None);
  R "torch.nn.Threshold" (Some "GenericMatcher") false false (MkEntry ["threshold"; "value"; "inplace"] [] 0 [] [("inplace", TNone)] [] (Some "paddle.nn.ThresholdedReLU"));
  R "torch.nn.Transformer" (Some "GenericMatcher") false false (MkEntry ["d_model"; "nhead"; "num_encoder_layers"; "num_decoder_layers"; "dim_feedforward"; "dropout"; "activation"; "custom_encoder"; "custom_decoder"; "layer_norm_eps"; "batch_first"; "norm_first"; "bias"; "device"; "dtype"] [] 0 ["layer_norm_eps"; "batch_first"] [("norm_first", TName "normalize_before"); ("bias", TName "bias_attr"); ("device", TNone); ("dtype", TNone)] [] (Some "paddle.nn.Transformer"));
  R "torch.nn.TransformerDecoder" (Some "ChangePrefixMatcher") false false (bare None);
  R "torch.nn.TransformerDecoderLayer" (Some "GenericMatcher") false false (MkEntry ["d_model"; "nhead"; "dim_feedforward"; "dropout"; "activation"; "layer_norm_eps"; "batch_first"; "norm_first"; "bias"; "device"; "dtype"] [] 2 ["batch_first"] [("norm_first", TName "normalize_before"); ("bias", TName "bias_attr"); ("device", TNone); ("dtype", TNone)] [("dim_feedforward", "2048")] (Some "paddle.nn.TransformerDecoderLayer"));
  R "torch.nn.TransformerEncoder" (Some "GenericMatcher") false false (MkEntry ["encoder_layer"; "num_layers"; "norm"; "enable_nested_tensor"; "mask_check"] [] 2 [] [("enable_nested_tensor", TNone); ("mask_check", TNone)] [] (Some "paddle.nn.TransformerEncoder"));
  R "torch.nn.TransformerEncoderLayer" (Some "GenericMatcher") false false (MkEntry ["d_model"; "nhead"; "dim_feedforward"; "dropout"; "activation"; "layer_norm_eps"; "batch_first"; "norm_first"; "bias"; "device"; "dtype"] [] 2 ["batch_first"] [("norm_first", TName "normalize_before"); ("bias", TName "bias_attr"); ("device", TNone); ("dtype", TNone)] [("dim_feedforward", "2048")] (Some "paddle.nn.TransformerEncoderLayer"));
  R "torch.nn.TripletMarginLoss" (Some "ChangePrefixMatcher") false false (bare None);
  R "torch.nn.TripletMarginWithDistanceLoss" (Some "ChangePrefixMatcher") false false (bare None);
  R "torch.nn.Unflatten" (Some "GenericMatcher") false false (MkEntry ["dim"; "unflattened_size"] [] 2 [] [("dim", TName "axis"); ("unflattened_size", TName "shape")] [] (Some "paddle.nn.Unflatten"));
  R "torch.nn.Unfold" (Some "ChangeAPIMatcher") false false (bare (Some "paddle.compat.nn.Unfold"));
  R "torch.nn.Upsample" (Some "ChangePrefixMatcher") false false (bare None);
  R "torch.nn.UpsamplingBilinear2d" (Some "ChangePrefixMatcher") false false (bare None);
  R "torch.nn.UpsamplingNearest2d" (Some "ChangePrefixMatcher") false false (bare None);
  R "torch.nn.ZeroPad1d" (Some "ChangePrefixMatcher") false false (bare None);
  R "torch.nn.ZeroPad2d" (Some "ChangePrefixMatcher") false false (bare None);
  R "torch.nn.ZeroPad3d" (Some "ChangePrefixMatcher") false false (bare None);
  R "torch.nn.attention.SDPBackend" (Some "ChangePrefixMatcher") false false (bare None);
  R "torch.nn.attention.SDPBackend.EFFICIENT_ATTENTION" (Some "ChangePrefixMatcher") false false (bare None);
  R "torch.nn.attention.SDPBackend.ERROR" (Some "ChangePrefixMatcher") false false (bare None);
  R "torch.nn.attention.SDPBackend.FLASH_ATTENTION" (Some "ChangePrefixMatcher") false false (bare None);
  R "torch.nn.attention.SDPBackend.MATH" (Some "ChangePrefixMatcher") false false (bare None);
  R "torch.nn.attention._cur_sdpa_kernel_backends" (Some "ChangePrefixMatcher") false false (bare None);
  R "torch.nn.attention.flex_attention.and_masks" (Some "ChangePrefixMatcher") false false (bare None);
  R "torch.nn.attention.flex_attention.or_masks" (Some "ChangePrefixMatcher") false false (bare None);
  R "torch.nn.attention.sdpa_kernel" (Some "ChangePrefixMatcher") false false (bare None);
  R "torch.nn.functional._Reduction.get_enum" (Some "Get_EnumMatcher") false false (MkEntry ["reduction"] [] 1 [] [] [] None);
  R "torch.nn.functional.adaptive_avg_pool1d" (Some "ChangePrefixMatcher") false false (bare None);
  R "torch.nn.functional.adaptive_avg_pool2d" (Some "ChangePrefixMatcher") false false (bare None);
  R "torch.nn.functional.adaptive_avg_pool3d" (Some "ChangePrefixMatcher") false false (bare None);
  R "torch.nn.functional.adaptive_max_pool1d" (Some "ChangePrefixMatcher") false false (bare None);
  R "torch.nn.functional.adaptive_max_pool2d" (Some "ChangePrefixMatcher") false false (bare None);
  R "torch.nn.functional.adaptive_max_pool3d" (Some "ChangePrefixMatcher") false false (bare None);
  R "torch.nn.functional.affine_grid" (Some "GenericMatcher") false false (MkEntry ["theta"; "size"; "align_corners"] [] 2 [] [("size", TName "out_shape")] [] (Some "paddle.nn.functional.affine_grid"));
  R "torch.nn.functional.alpha_dropout" (Some "GenericMatcher") false false (MkEntry ["input"; "p"; "training"; "inplace"] [] 1 [] [("input", TName "x")] [] (Some "paddle.nn.functional.alpha_dropout"));
  R "torch.nn.functional.avg_pool1d" (Some "AvgPoolMatcher") false false (MkEntry ["input"; "kernel_size"; "stride"; "padding"; "ceil_mode"; "count_include_pad"] [] 2 [] [] [] (Some "paddle.nn.functional.avg_pool1d"));
  R "torch.nn.functional.avg_pool2d" (Some "AvgPoolMatcher") false false (MkEntry ["input"; "kernel_size"; "stride"; "padding"; "ceil_mode"; "count_include_pad"; "divisor_override"] [] 2 [] [] [] (Some "paddle.nn.functional.avg_pool2d"));
  R "torch.nn.functional.avg_pool3d" (Some "AvgPoolMatcher") false false (MkEntry ["input"; "kernel_size"; "stride"; "padding"; "ceil_mode"; "count_include_pad"; "divisor_override"] [] 2 [] [] [] (Some "paddle.nn.functional.avg_pool3d"));
  R "torch.nn.functional.batch_norm" (Some "ChangeAPIMatcher") false false (bare (Some "paddle.compat.nn.functional.batch_norm"));
  R "torch.nn.functional.bilinear" (Some "FunctionalBilinearMatcher") false false (MkEntry ["input1"; "input2"; "weight"; "bias"] [] 3 [] [("input1", TName "x1"); ("input2", TName "x2")] [] (Some "paddle.nn.functional.bilinear"));
  R "torch.nn.functional.binary_cross_entropy" (Some "ChangePrefixMatcher") false false (bare None);
  R "torch.nn.functional.binary_cross_entropy_with_logits" (Some "ChangePrefixMatcher") false false (bare None);
  R "torch.nn.functional.celu" (Some "GenericMatcher") false false (MkEntry ["input"; "alpha"; "inplace"] [] 1 [] [("input", TName "x")] [] (Some "paddle.nn.functional.celu"))].

Definition api_mapping_14 : list row := [
  R "torch.nn.functional.channel_shuffle" (Some "GenericMatcher") false false (MkEntry ["input"; "groups"] [] 0 [] [("input", TName "x")] [] (Some "paddle.nn.functional.channel_shuffle"));
  R "torch.nn.functional.conv1d" (Some "ChangePrefixMatcher") false false (bare None);
  R "torch.nn.functional.conv2d" (Some "ChangePrefixMatcher") false false (bare None);
  R "torch.nn.functional.conv3d" (Some "ChangePrefixMatcher") false false (bare None);
  R "torch.nn.functional.conv_transpose1d" (Some "ChangePrefixMatcher") false false (bare None);
  R "torch.nn.functional.conv_transpose2d" (Some "ChangePrefixMatcher") false false (bare None);
  R "torch.nn.functional.conv_transpose3d" (Some "ChangePrefixMatcher") false false (bare None);
  R "torch.nn.functional.cosine_embedding_loss" (Some "ChangePrefixMatcher") false false (bare None);
  R "torch.nn.functional.cosine_similarity" (Some "ChangePrefixMatcher") false false (bare None);
  R "torch.nn.functional.cross_entropy" (Some "ChangePrefixMatcher") false false (bare None);
  R "torch.nn.functional.ctc_loss" None false false (bare None);
  R "torch.nn.functional.dropout" (Some "ChangePrefixMatcher") false false (bare None);
  R "torch.nn.functional.dropout1d" (Some "ChangePrefixMatcher") false false (bare None);
  R "torch.nn.functional.dropout2d" (Some "GenericMatcher") false false (MkEntry ["input"; "p"; "training"; "inplace"] [] 1 [] [("input", TName "x")] [] (Some "paddle.nn.functional.dropout2d"));
  R "torch.nn.functional.dropout3d" (Some "GenericMatcher") false false (MkEntry ["input"; "p"; "training"; "inplace"] [] 1 [] [("input", TName "x")] [] (Some "paddle.nn.functional.dropout3d"));
  R "torch.nn.functional.elu" (Some "ChangePrefixMatcher") false false (bare None);
  R "torch.nn.functional.elu_" (Some "GenericMatcher") false false (MkEntry ["input"; "alpha"] [] 1 [] [("input", TName "x")] [] (Some "paddle.nn.functional.elu_"));
  R "torch.nn.functional.embedding" (Some "ChangePrefixMatcher") false false (bare None);
  R "torch.nn.functional.feature_alpha_dropout" (Some "GenericMatcher") false false (MkEntry ["input"; "p"; "training"; "inplace"] [] 1 [] [("input", TName "x"); ("inplace", TNone)] [("training", "False")] (Some "paddle.nn.functional.feature_alpha_dropout"));
  R "torch.nn.functional.fold" (Some "ChangePrefixMatcher") false false (bare None);
  R "torch.nn.functional.fractional_max_pool2d" (Some "Fractional_Max_pool2dMatcher") false false (MkEntry ["input"; "kernel_size"; "output_size"; "output_ratio"; "return_indices"; "_random_samples"] [] 3 ["_random_samples"] [] [] (Some "paddle.nn.functional.fractional_max_pool2d"));
  R "torch.nn.functional.fractional_max_pool3d" (Some "Fractional_Max_pool3dMatcher") false false (MkEntry ["input"; "kernel_size"; "output_size"; "output_ratio"; "return_indices"; "_random_samples"] [] 3 ["_random_samples"] [] [] (Some "paddle.nn.functional.fractional_max_pool3d"));
  R "torch.nn.functional.gaussian_nll_loss" (Some "ChangePrefixMatcher") false false (bare None);
  R "torch.nn.functional.gelu" (Some "ChangePrefixMatcher") false false (bare None);
  R "torch.nn.functional.glu" (Some "ChangePrefixMatcher") false false (bare None);
  R "torch.nn.functional.grid_sample" (Some "ChangePrefixMatcher") false false (bare None);
  R "torch.nn.functional.group_norm" (Some "ChangePrefixMatcher") false false (bare None);
  R "torch.nn.functional.gumbel_softmax" (Some "ChangePrefixMatcher") false false (bare None);
  R "torch.nn.functional.hardshrink" (Some "ChangePrefixMatcher") false false (bare None);
  R "torch.nn.functional.hardsigmoid" (Some "GenericMatcher") false false (MkEntry ["input"; "inplace"] [] 1 [] [("input", TName "x")] [] (Some "paddle.nn.functional.hardsigmoid"));
  R "torch.nn.functional.hardswish" (Some "ChangePrefixMatcher") false false (bare None);
  R "torch.nn.functional.hardtanh" (Some "GenericMatcher") false false (MkEntry ["input"; "min_val"; "max_val"; "inplace"] [] 1 [] [("input", TName "x"); ("min_val", TName "min"); ("max_val", TName "max")] [] (Some "paddle.nn.functional.hardtanh"));
  R "torch.nn.functional.hardtanh_" (Some "GenericMatcher") false false (MkEntry ["input"; "min_val"; "max_val"] [] 1 [] [("input", TName "x"); ("min_val", TName "min"); ("max_val", TName "max")] [] (Some "paddle.nn.functional.hardtanh_"));
  R "torch.nn.functional.hinge_embedding_loss" (Some "ChangePrefixMatcher") false false (bare None);
  R "torch.nn.functional.huber_loss" (Some "ChangePrefixMatcher") false false (bare None);
  R "torch.nn.functional.instance_norm" (Some "ChangePrefixMatcher") false false (bare None);
  R "torch.nn.functional.interpolate" (Some "ChangePrefixMatcher") false false (bare None);
  R "torch.nn.functional.kl_div" (Some "ChangePrefixMatcher") false false (bare None);
  R "torch.nn.functional.l1_loss" (Some "ChangePrefixMatcher") false false (bare None);
  R "torch.nn.functional.layer_norm" (Some "ChangePrefixMatcher") false false (bare None);
  R "torch.nn.functional.leaky_relu" (Some "ChangePrefixMatcher") false false (bare None);
  R "torch.nn.functional.leaky_relu_" (Some "ChangePrefixMatcher") false false (bare None);
  R "torch.nn.functional.linear" (Some "ChangeAPIMatcher") false false (bare (Some "paddle.compat.nn.functional.linear"));
  R "torch.nn.functional.local_response_norm" (Some "GenericMatcher") false false (MkEntry ["input"; "size"; "alpha"; "beta"; "k"] [] 2 [] [("input", TName "x")] [] (Some "paddle.nn.functional.local_response_norm"));
  R "torch.nn.functional.log_softmax" (Some "ChangeAPIMatcher") false false (bare (Some "paddle.compat.nn.functional.log_softmax"));
  R "torch.nn.functional.logsigmoid" (Some "ChangePrefixMatcher") false false (bare None);
  R "torch.nn.functional.lp_pool1d" (Some "ChangePrefixMatcher") false false (bare None);
  R "torch.nn.functional.lp_pool2d" (Some "ChangePrefixMatcher") false false (bare None);
  R "torch.nn.functional.margin_ranking_loss" (Some "ChangePrefixMatcher") false false (bare None);
  R "torch.nn.functional.max_pool1d" (Some "ChangePrefixMatcher") false false (bare None);
  R "torch.nn.functional.max_pool2d" (Some "ChangePrefixMatcher") false false (bare None);
  R "torch.nn.functional.max_pool3d" (Some "ChangePrefixMatcher") false false (bare None);
  R "torch.nn.functional.max_unpool1d" (Some "GenericMatcher") false false (MkEntry ["input"; "indices"; "kernel_size"; "stride"; "padding"; "output_size"] [] 3 [] [("input", TName "x")] [] (Some "paddle.nn.functional.max_unpool1d"));
  R "torch.nn.functional.max_unpool2d" (Some "GenericMatcher") false false (MkEntry ["input"; "indices"; "kernel_size"; "stride"; "padding"; "output_size"] [] 3 [] [("input", TName "x")] [] (Some "paddle.nn.functional.max_unpool2d"));
  R "torch.nn.functional.max_unpool3d" (Some "GenericMatcher") false false (MkEntry ["input"; "indices"; "kernel_size"; "stride"; "padding"; "output_size"] [] 3 [] [("input", TName "x")] [] (Some "paddle.nn.functional.max_unpool3d"));
  R "torch.nn.functional.mish" (Some "ChangePrefixMatcher") false false (bare None);
  R "torch.nn.functional.mse_loss" (Some "ChangePrefixMatcher") false false (bare None);
  R "torch.nn.functional.multi_margin_loss" (Some "ChangePrefixMatcher") false false (bare None);
  R "torch.nn.functional.multilabel_margin_loss" (Some "ChangePrefixMatcher") false false (bare None);
  R "torch.nn.functional.multilabel_soft_margin_loss" (Some "ChangePrefixMatcher") false false (bare None);
  R "torch.nn.functional.nll_loss" (Some "ChangePrefixMatcher") false false (bare None);
  R "torch.nn.functional.normalize" (Some "ChangePrefixMatcher") false false (bare None);
  R "torch.nn.functional.one_hot" (Some "ChangePrefixMatcher") false false (bare None);
  R "torch.nn.functional.pad" (Some "ChangeAPIMatcher") false false (bare (Some "paddle.compat.nn.functional.pad"));
  R "torch.nn.functional.pairwise_distance" (Some "ChangePrefixMatcher") false false (bare None);
  R "torch.nn.functional.pdist" (Some "GenericMatcher") false false (MkEntry ["input"; "p"] [] 1 [] [("input", TName "x")] [] (Some "paddle.pdist"));
  R "torch.nn.functional.pixel_shuffle" (Some "ChangePrefixMatcher") false false (bare None);
  R "torch.nn.functional.pixel_unshuffle" (Some "ChangePrefixMatcher") false false (bare None);
  R "torch.nn.functional.poisson_nll_loss" (Some "ChangePrefixMatcher") false false (bare None);
  R "torch.nn.functional.prelu" (Some "ChangePrefixMatcher") false false (bare None);
  R "torch.nn.functional.relu" (Some "ChangePrefixMatcher") false false (bare None);
  R "torch.nn.functional.relu6" (Some "ChangePrefixMatcher") false false (bare None);
  R "torch.nn.functional.relu_" (Some "ChangePrefixMatcher") false false (bare None);
  R "torch.nn.functional.rms_norm" (Some "ChangePrefixMatcher") false false (bare None);
  R "torch.nn.functional.rrelu" (Some "GenericMatcher") false false (MkEntry ["input"; "lower"; "upper"; "training"; "inplace"] [] 1 [] [("input", TName "x")] [] (Some "paddle.nn.functional.rrelu"));
  R "torch.nn.functional.rrelu_" (Some "GenericMatcher") false false (MkEntry ["input"; "lower"; "upper"; "training"] [] 1 [] [("input", TName "x")] [] (Some "paddle.nn.functional.rrelu"));
  R "torch.nn.functional.scaled_dot_product_attention" (Some "ChangeAPIMatcher") false false (bare (Some "paddle.compat.nn.functional.scaled_dot_product_attention"));
  R "torch.nn.functional.selu" (Some "GenericMatcher") false false (MkEntry ["input"; "inplace"] [] 1 [] [("input", TName "x")] [] (Some "paddle.nn.functional.selu"));
  R "torch.nn.functional.sigmoid" (Some "ChangePrefixMatcher") false false (bare None);
  R "torch.nn.functional.silu" (Some "ChangePrefixMatcher") false false (bare None);
  R "torch.nn.functional.smooth_l1_loss" (Some "ChangeAPIMatcher") false false (MkEntry ["input"; "target"; "size_average"; "reduce"; "reduction"; "beta"] [] 2 [] [] [] (Some "paddle.compat.nn.functional.smooth_l1_loss"));
  R "torch.nn.functional.soft_margin_loss" (Some "ChangePrefixMatcher") false false (bare None);
  R "torch.nn.functional.softmax" (Some "ChangeAPIMatcher") false false (bare (Some "paddle.compat.nn.functional.softmax"));
  R "torch.nn.functional.softmin" (Some "FSoftMinMatcher") false false (MkEntry ["input"; "dim"; "_stacklevel"; "dtype"] [] 1 [] [("input", TName "x"); ("dim", TName "axis"); ("_stacklevel", TNone); ("dtype", TName "dtype")] [] (Some "paddle.nn.functional.softmax"));
  R "torch.nn.functional.softplus" (Some "ChangePrefixMatcher") false false (bare None);
  R "torch.nn.functional.softshrink" (Some "ChangePrefixMatcher") false false (bare None);
  R "torch.nn.functional.softsign" (Some "GenericMatcher") false false (MkEntry ["input"] [] 1 [] [("input", TName "x")] [] (Some "paddle.nn.functional.softsign"));
  R "torch.nn.functional.tanh" (Some "ChangePrefixMatcher") false false (bare None);
  R "torch.nn.functional.tanhshrink" (Some "GenericMatcher") false false (MkEntry ["input"] [] 1 [] [("input", TName "x")] [] (Some "paddle.nn.functional.tanhshrink"));
  R "torch.nn.functional.threshold" (Some "GenericMatcher") false false (MkEntry ["input"; "threshold"; "value"; "inplace"] [] 3 [] [("input", TName "x")] [] (Some "paddle.nn.functional.thresholded_relu"));
  R "torch.nn.functional.threshold_" (Some "GenericMatcher") false false (MkEntry ["input"; "threshold"; "value"] [] 3 [] [("input", TName "x")] [] (Some "paddle.nn.functional.thresholded_relu_"));
  R "torch.nn.functional.triplet_margin_loss" (Some "ChangePrefixMatcher") false false (bare None);
  R "torch.nn.functional.triplet_margin_with_distance_loss" (Some "ChangePrefixMatcher") false false (bare None);
  R "torch.nn.functional.unfold" (Some "ChangeAPIMatcher") false false (bare (Some "paddle.compat.nn.functional.unfold"));
  R "torch.nn.functional.upsample" (Some "GenericMatcher") false false (MkEntry ["input"; "size"; "scale_factor"; "mode"; "align_corners"] [] 1 ["align_corners"] [("input", TName "x")] [] (Some "paddle.nn.functional.upsample"));
  R "torch.nn.functional.upsample_bilinear" (Some "GenericMatcher") false false (MkEntry ["input"; "size"; "scale_factor"] [] 1 [] [("input", TName "x")] [("align_corners", "True"); ("mode", "'bilinear'")] (Some "paddle.nn.functional.upsample"));
  R "torch.nn.functional.upsample_nearest" (Some "GenericMatcher") false false (MkEntry ["input"; "size"; "scale_factor"] [] 1 [] [("input", TName "x")] [] (Some "paddle.nn.functional.upsample"));
  R "torch.nn.init._calculate_fan_in_and_fan_out" (Some "ChangePrefixMatcher") false false (bare None);
  R "torch.nn.init.calculate_gain" (Some "ChangePrefixMatcher") false false (bare None);
  R "torch.nn.init.constant_" (Some "ChangePrefixMatcher") false false (bare None)].

Definition api_mapping_15 : list row := [
  R "torch.nn.init.dirac_" (Some "ChangePrefixMatcher") false false (bare None);
  R "torch.nn.init.eye_" (Some "ChangePrefixMatcher") false false (bare None);
  R "torch.nn.init.kaiming_normal_" (Some "ChangePrefixMatcher") false false (bare None);
  R "torch.nn.init.kaiming_uniform_" (Some "ChangePrefixMatcher") false false (bare None);
  R "torch.nn.init.normal_" (Some "ChangePrefixMatcher") false false (bare None);
  R "torch.nn.init.ones_" (Some "ChangePrefixMatcher") false false (bare None);
  R "torch.nn.init.orthogonal_" (Some "ChangePrefixMatcher") false false (bare None);
  R "torch.nn.init.sparse_" (Some "ChangePrefixMatcher") false false (bare None);
  R "torch.nn.init.trunc_normal_" (Some "ChangePrefixMatcher") false false (bare None);
  R "torch.nn.init.uniform_" (Some "ChangePrefixMatcher") false false (bare None);
  R "torch.nn.init.xavier_normal_" (Some "ChangePrefixMatcher") false false (bare None);
  R "torch.nn.init.xavier_uniform" (Some "ChangePrefixMatcher") false false (bare None);
  R "torch.nn.init.xavier_uniform_" (Some "ChangePrefixMatcher") false false (bare None);
  R "torch.nn.init.zeros_" (Some "ChangePrefixMatcher") false false (bare None);
  R "torch.nn.modules.Module" (Some "ChangePrefixMatcher") false false (bare None);
  R "torch.nn.modules.batchnorm._BatchNorm" (Some "ReverseMomentumMatcher") false false (MkEntry ["num_features"; "eps"; "momentum"; "affine"; "track_running_stats"; "device"; "dtype"] [] 1 [] [("eps", TName "epsilon"); ("affine", TList ["weight_attr"; "bias_attr"]); ("track_running_stats", TNone); ("device", TNone); ("dtype", TNone)] [] (Some "paddle.nn.layer.norm._BatchNormBase"));
  R "torch.nn.modules.loss.BCELoss" (Some "ChangePrefixMatcher") false false (bare None);
  R "torch.nn.modules.loss.BCEWithLogitsLoss" (Some "ChangePrefixMatcher") false false (bare None);
  R "torch.nn.modules.loss.CTCLoss" None false false (bare None);
  R "torch.nn.modules.loss.CosineEmbeddingLoss" (Some "ChangePrefixMatcher") false false (bare None);
  R "torch.nn.modules.loss.CrossEntropyLoss" (Some "ChangePrefixMatcher") false false (bare None);
  R "torch.nn.modules.loss.GaussianNLLLoss" (Some "ChangePrefixMatcher") false false (bare None);
  R "torch.nn.modules.loss.HingeEmbeddingLoss" (Some "ChangePrefixMatcher") false false (bare None);
  R "torch.nn.modules.loss.KLDivLoss" (Some "ChangePrefixMatcher") false false (bare None);
  R "torch.nn.modules.loss.L1Loss" (Some "ChangePrefixMatcher") false false (bare None);
  R "torch.nn.modules.loss.MSELoss" (Some "ChangePrefixMatcher") false false (bare None);
  R "torch.nn.modules.loss.MarginRankingLoss" (Some "ChangePrefixMatcher") false false (bare None);
  R "torch.nn.modules.loss.MultiLabelMarginLoss" (Some "ChangePrefixMatcher") false false (bare None);
  R "torch.nn.modules.loss.MultiLabelSoftMarginLoss" (Some "ChangePrefixMatcher") false false (bare None);
  R "torch.nn.modules.loss.MultiMarginLoss" (Some "ChangePrefixMatcher") false false (bare None);
  R "torch.nn.modules.loss.NLLLoss" (Some "ChangePrefixMatcher") false false (bare None);
  R "torch.nn.modules.loss.PoissonNLLLoss" (Some "ChangePrefixMatcher") false false (bare None);
  R "torch.nn.modules.loss.SmoothL1Loss" (Some "ChangeAPIMatcher") false false (bare (Some "paddle.compat.nn.SmoothL1Loss"));
  R "torch.nn.modules.loss.SoftMarginLoss" (Some "ChangePrefixMatcher") false false (bare None);
  R "torch.nn.modules.loss.TripletMarginLoss" (Some "ChangePrefixMatcher") false false (bare None);
  R "torch.nn.modules.loss.TripletMarginWithDistanceLoss" (Some "ChangePrefixMatcher") false false (bare None);
  R "torch.nn.modules.loss._Loss" (Some "ChangePrefixMatcher") false false (bare None);
  R "torch.nn.modules.module.Module" (Some "ChangePrefixMatcher") false false (bare None);
  R "torch.nn.modules.utils._ntuple" (Some "NTupleMatcher") false false (MkEntry ["n"; "name"] [] 1 [] [] [] None);
  R "torch.nn.modules.utils._pair" (Some "ChangePrefixMatcher") false false (bare None);
  R "torch.nn.parallel.DistributedDataParallel" (Some "GenericMatcher") false false (MkEntry ["module"; "device_ids"; "output_device"; "dim"; "broadcast_buffers"; "process_group"; "bucket_cap_mb"; "find_unused_parameters"; "check_reduction"; "gradient_as_bucket_view"; "static_graph"] [] 1 ["output_device"; "dim"; "broadcast_buffers"; "process_group"; "gradient_as_bucket_view"; "static_graph"] [("module", TName "layers"); ("device_ids", TNone); ("bucket_cap_mb", TName "comm_buffer_size"); ("check_reduction", TNone)] [] (Some "paddle.DataParallel"));
  R "torch.nn.parameter.Parameter" (Some "ChangePrefixMatcher") false false (bare None);
  R "torch.nn.utils.clip_grad_norm_" (Some "ChangePrefixMatcher") false false (bare None);
  R "torch.nn.utils.clip_grad_value_" (Some "GenericMatcher") false false (MkEntry ["parameters"; "clip_value"; "foreach"] [] 2 [] [("foreach", TNone)] [] (Some "paddle.nn.utils.clip_grad_value_"));
  R "torch.nn.utils.parameters_to_vector" (Some "ChangePrefixMatcher") false false (bare None);
  R "torch.nn.utils.parametrizations.spectral_norm" (Some "GenericMatcher") false false (MkEntry ["module"; "name"; "n_power_iterations"; "eps"; "dim"] [] 1 [] [("module", TName "layer")] [] (Some "paddle.nn.utils.spectral_norm"));
  R "torch.nn.utils.parametrizations.weight_norm" (Some "GenericMatcher") false false (MkEntry ["module"; "name"; "dim"] [] 1 [] [("module", TName "layer")] [] (Some "paddle.nn.utils.weight_norm"));
  R "torch.nn.utils.remove_weight_norm" (Some "GenericMatcher") false false (MkEntry ["module"; "name"] [] 1 [] [("module", TName "layer")] [] (Some "paddle.nn.utils.remove_weight_norm"));
  R "torch.nn.utils.rnn.PackedSequence" (Some "ChangePrefixMatcher") false false (bare None);
  R "torch.nn.utils.rnn.invert_permutation" (Some "ChangePrefixMatcher") false false (bare None);
  R "torch.nn.utils.rnn.pack_padded_sequence" (Some "ChangePrefixMatcher") false false (bare None);
  R "torch.nn.utils.rnn.pack_sequence" (Some "ChangePrefixMatcher") false false (bare None);
  R "torch.nn.utils.rnn.pad_packed_sequence" (Some "ChangePrefixMatcher") false false (bare None);
  R "torch.nn.utils.rnn.pad_sequence" (Some "ChangePrefixMatcher") false false (bare None);
  R "torch.nn.utils.rnn.unpack_sequence" (Some "ChangePrefixMatcher") false false (bare None);
  R "torch.nn.utils.rnn.unpad_sequence" (Some "ChangePrefixMatcher") false false (bare None);
  R "torch.nn.utils.spectral_norm" (Some "GenericMatcher") false false (MkEntry ["module"; "name"; "n_power_iterations"; "eps"; "dim"] [] 1 [] [("module", TName "layer")] [] (Some "paddle.nn.utils.spectral_norm"));
  R "torch.nn.utils.vector_to_parameters" (Some "ChangePrefixMatcher") false false (bare None);
  R "torch.nn.utils.weight_norm" (Some "ChangePrefixMatcher") false false (bare None);
  R "torch.no_grad" (Some "ChangePrefixMatcher") false false (bare None);
  R "torch.nonzero" (Some "ChangePrefixMatcher") false false (bare None);
  R "torch.norm" (Some "ChangePrefixMatcher") false false (bare None);
  R "torch.normal" (Some "ChangePrefixMatcher") false false (bare None);
  R "torch.not_equal" (Some "ChangePrefixMatcher") false false (bare None);
  R "torch.numel" (Some "NumelMatcher") false false (MkEntry ["input"] [] 1 [] [] [] (Some "paddle.Tensor.size"));
  R "torch.ones" (Some "ChangePrefixMatcher") false false (bare None);
  R "torch.ones_like" (Some "ChangePrefixMatcher") false false (bare None);
  R "torch.onnx.export" (Some "OnnxExportMatcher") false false (MkEntry ["model"; "args"; "f"; "export_params"; "verbose"; "training"; "input_names"; "output_names"; "operator_export_type"; "opset_version"; "do_constant_folding"; "dynamic_axes"; "keep_initializers_as_inputs"; "custom_opsets"; "export_modules_as_functions"] [] 1 ["args"; "export_params"; "verbose"; "training"; "input_names"; "output_names"; "operator_export_type"; "do_constant_folding"; "dynamic_axes"; "keep_initializers_as_inputs"; "custom_opsets"; "export_modules_as_functions"] [("model", TName "layer"); ("f", TName "path")] [] (Some "paddle.onnx.export"));
  R "torch.optim.ASGD" (Some "GenericMatcher") false false (MkEntry ["params"; "lr"; "lambd"; "alpha"; "t0"; "weight_decay"; "foreach"; "maximize"; "differentiable"] [] 1 ["maximize"] [("params", TName "parameters"); ("lr", TName "learning_rate"); ("lambd", TNone); ("alpha", TNone); ("t0", TNone); ("foreach", TNone); ("differentiable", TNone)] [] (Some "paddle.optimizer.ASGD"));
  R "torch.optim.Adadelta" (Some "GenericMatcher") false false (MkEntry ["params"; "lr"; "rho"; "eps"; "weight_decay"; "foreach"; "*"; "maximize"; "differentiable"] [] 1 ["foreach"; "maximize"; "differentiable"] [("params", TName "parameters"); ("lr", TName "learning_rate"); ("eps", TName "epsilon")] [("rho", "0.9"); ("weight_decay", "0.0"); ("learning_rate", "1.0")] (Some "paddle.optimizer.Adadelta"));
  R "torch.optim.Adagrad" (Some "ChangePrefixMatcher") false false (bare None);
  R "torch.optim.Adam" (Some "OptimAdamMatcher") false false (MkEntry ["params"; "lr"; "betas"; "eps"; "weight_decay"; "amsgrad"; "*"; "foreach"; "maximize"; "capturable"; "differentiable"; "fused"; "decoupled_weight_decay"] [] 1 ["amsgrad"; "foreach"; "maximize"; "capturable"; "differentiable"; "fused"; "decoupled_weight_decay"] [("params", TName "parameters"); ("lr", TName "learning_rate"); ("eps", TName "epsilon")] [("weight_decay", "0.0")] (Some "paddle.optimizer.Adam"));
  R "torch.optim.AdamW" (Some "ChangePrefixMatcher") false false (bare None);
  R "torch.optim.Adamax" (Some "OptimAdamMatcher") false false (MkEntry ["params"; "lr"; "betas"; "eps"; "weight_decay"; "foreach"; "*"; "maximize"; "differentiable"] [] 1 ["foreach"; "maximize"; "differentiable"] [("params", TName "parameters"); ("lr", TName "learning_rate"); ("eps", TName "epsilon")] [] (Some "paddle.optimizer.Adamax"));
  R "torch.optim.LBFGS" (Some "GenericMatcher") false false (MkEntry ["params"; "lr"; "max_iter"; "max_eval"; "tolerance_grad"; "tolerance_change"; "history_size"; "line_search_fn"] [] 1 [] [("params", TName "parameters"); ("lr", TName "learning_rate")] [] (Some "paddle.optimizer.LBFGS"));
  R "torch.optim.NAdam" (Some "OptimAdamMatcher") false false (MkEntry ["params"; "lr"; "betas"; "eps"; "weight_decay"; "momentum_decay"; "decoupled_weight_decay"; "*"; "foreach"; "maximize"; "capturable"; "differentiable"] [] 1 ["decoupled_weight_decay"; "foreach"; "maximize"; "capturable"; "differentiable"] [("params", TName "parameters"); ("lr", TName "learning_rate"); ("eps", TName "epsilon")] [("weight_decay", "0.0")] (Some "paddle.optimizer.NAdam"));
  R "torch.optim.Optimizer" (Some "ChangePrefixMatcher") false false (bare None);
  R "torch.optim.Optimizer.add_param_group" (Some "ChangeAPIMatcher") false false (MkEntry [] [] 1 [] [] [] (Some "paddle.optimizer.Optimizer._add_param_group"));
  R "torch.optim.Optimizer.load_state_dict" (Some "ChangeAPIMatcher") false false (MkEntry [] [] 1 [] [] [] (Some "paddle.optimizer.Optimizer.load_state_dict"));
  R "torch.optim.Optimizer.state_dict" (Some "ChangeAPIMatcher") false false (bare (Some "paddle.optimizer.Optimizer.state_dict"));
  R "torch.optim.Optimizer.step" (Some "ChangePrefixMatcher") false false (bare None);
  R "torch.optim.Optimizer.zero_grad" (Some "ZeroGradMatcher") false false (MkEntry ["set_to_none"] [] 0 [] [] [("set_to_zero", "False")] (Some "paddle.optimizer.Optimizer.clear_gradients"));
  R "torch.optim.RAdam" (Some "OptimAdamMatcher") false false (MkEntry ["params"; "lr"; "betas"; "eps"; "weight_decay"; "decoupled_weight_decay"; "*"; "foreach"; "maximize"; "capturable"; "differentiable"] [] 1 ["decoupled_weight_decay"; "foreach"; "maximize"; "capturable"; "differentiable"] [("params", TName "parameters"); ("lr", TName "learning_rate"); ("eps", TName "epsilon")] [("weight_decay", "0.0")] (Some "paddle.optimizer.RAdam"));
  R "torch.optim.RMSprop" (Some "GenericMatcher") false false (MkEntry ["params"; "lr"; "alpha"; "eps"; "weight_decay"; "momentum"; "centered"; "foreach"; "maximize"; "differentiable"] [] 1 ["foreach"; "maximize"; "differentiable"] [("params", TName "parameters"); ("lr", TName "learning_rate"); ("alpha", TName "rho"); ("eps", TName "epsilon")] [("weight_decay", "0.0"); ("epsilon", "1e-08"); ("learning_rate", "0.01"); ("rho", "0.99")] (Some "paddle.optimizer.RMSProp"));
  R "torch.optim.Rprop" (Some "GenericMatcher") false false (MkEntry ["params"; "lr"; "etas"; "step_sizes"; "foreach"; "maximize"; "differentiable"] [] 1 ["maximize"] [("params", TName "parameters"); ("lr", TName "learning_rate"); ("step_sizes", TName "learning_rate_range"); ("foreach", TNone); ("differentiable", TNone)] [] (Some "paddle.optimizer.Rprop"));
  R "torch.optim.SGD" (Some "ChangePrefixMatcher") false false (bare None);
  R "torch.optim.lr_scheduler.ConstantLR" (Some "ConstantLRMatcher") false false (MkEntry ["optimizer"; "factor"; "total_iters"; "last_epoch"; "verbose"] [] 1 [] [] [] (Some "paddle.optimizer.lr.PiecewiseDecay"));
  R "torch.optim.lr_scheduler.CosineAnnealingLR" (Some "ChangePrefixMatcher") false false (bare None);
  R "torch.optim.lr_scheduler.CosineAnnealingWarmRestarts" (Some "ChangePrefixMatcher") false false (bare None);
  R "torch.optim.lr_scheduler.CyclicLR" (Some "LRSchedulerMatcher") false false (MkEntry ["optimizer"; "base_lr"; "max_lr"; "step_size_up"; "step_size_down"; "mode"; "gamma"; "scale_fn"; "scale_mode"; "cycle_momentum"; "base_momentum"; "max_momentum"; "last_epoch"; "verbose"] [] 3 ["cycle_momentum"; "base_momentum"; "max_momentum"] [("base_lr", TName "base_learning_rate"); ("max_lr", TName "max_learning_rate"); ("gamma", TName "exp_gamma")] [("step_size_up", "2000")] (Some "paddle.optimizer.lr.CyclicLR"));
  R "torch.optim.lr_scheduler.ExponentialLR" (Some "ChangePrefixMatcher") false false (bare None);
  R "torch.optim.lr_scheduler.LambdaLR" (Some "ChangePrefixMatcher") false false (bare None);
  R "torch.optim.lr_scheduler.LinearLR" (Some "Optim2LrSchedulerMatcher") false false (MkEntry ["optimizer"; "start_factor"; "end_factor"; "total_iters"; "last_epoch"; "verbose"] [] 1 [] [("total_iters", TName "total_steps")] [("total_steps", "5")] (Some "paddle.optimizer.lr.LinearLR"));
  R "torch.optim.lr_scheduler.MultiStepLR" (Some "ChangePrefixMatcher") false false (bare None);
  R "torch.optim.lr_scheduler.MultiplicativeLR" (Some "Optim2LrSchedulerMatcher") false false (MkEntry ["optimizer"; "lr_lambda"; "last_epoch"; "verbose"] [] 2 [] [] [] (Some "paddle.optimizer.lr.MultiplicativeDecay"));
  R "torch.optim.lr_scheduler.OneCycleLR" (Some "OneCycleLRMatcher") false false (MkEntry ["optimizer"; "max_lr"; "total_steps"; "epochs"; "steps_per_epoch"; "pct_start"; "anneal_strategy"; "cycle_momentum"; "base_momentum"; "max_momentum"; "div_factor"; "final_div_factor"; "three_phase"; "last_epoch"; "verbose"] [] 3 ["cycle_momentum"; "base_momentum"; "max_momentum"] [("max_lr", TName "max_learning_rate"); ("pct_start", TName "phase_pct"); ("div_factor", TName "divide_factor")] [] (Some "paddle.optimizer.lr.OneCycleLR"));
  R "torch.optim.lr_scheduler.ReduceLROnPlateau" (Some "ChangePrefixMatcher") false false (bare None);
  R "torch.optim.lr_scheduler.StepLR" (Some "ChangePrefixMatcher") false false (bare None);
  R "torch.optim.sgd.SGD" (Some "ChangePrefixMatcher") false false (bare None);
  R "torch.ormqr" (Some "GenericMatcher") false false (MkEntry ["input"; "input2"; "input3"; "left"; "transpose"; "*"; "out"] [] 3 [] [("input", TName "x"); ("input2", TName "tau"); ("input3", TName "y")] [] (Some "paddle.linalg.ormqr"))].

Definition api_mapping_16 : list row := [
  R "torch.outer" (Some "ChangePrefixMatcher") false false (bare None);
  R "torch.pca_lowrank" (Some "GenericMatcher") false false (MkEntry ["A"; "q"; "center"; "niter"] [] 1 [] [("A", TName "x")] [] (Some "paddle.linalg.pca_lowrank"));
  R "torch.permute" (Some "ChangePrefixMatcher") false false (bare None);
  R "torch.pinverse" (Some "ChangePrefixMatcher") false false (bare None);
  R "torch.poisson" (Some "ChangePrefixMatcher") false false (bare None);
  R "torch.poisson_nll_loss" None false false (bare None);
  R "torch.polar" (Some "ChangePrefixMatcher") false false (bare None);
  R "torch.positive" (Some "ChangePrefixMatcher") false false (bare None);
  R "torch.pow" (Some "ChangePrefixMatcher") false false (bare None);
  R "torch.prod" (Some "ChangePrefixMatcher") false false (bare None);
  R "torch.profiler.profile" None false false (bare None);
  R "torch.profiler.schedule" (Some "GenericMatcher") false false (MkEntry ["*"; "wait"; "warmup"; "active"; "repeat"; "skip_first"] [] 0 [] [("wait", TName "closed"); ("warmup", TName "ready"); ("active", TName "record")] [] (Some "paddle.profiler.make_scheduler"));
  R "torch.qr" (Some "ChangePrefixMatcher") false false (bare None);
  R "torch.quantile" (Some "ChangePrefixMatcher") false false (bare None);
  R "torch.rad2deg" (Some "ChangePrefixMatcher") false false (bare None);
  R "torch.rand" (Some "ChangePrefixMatcher") false false (bare None);
  R "torch.rand_like" (Some "ChangePrefixMatcher") false false (bare None);
  R "torch.randint" (Some "ChangePrefixMatcher") false false (bare None);
  R "torch.randint_like" (Some "ChangePrefixMatcher") false false (bare None);
  R "torch.randn" (Some "ChangePrefixMatcher") false false (bare None);
  R "torch.randn_like" (Some "ChangePrefixMatcher") false false (bare None);
  R "torch.random.get_rng_state" (Some "ChangePrefixMatcher") false false (bare None);
  R "torch.random.initial_seed" (Some "ChangePrefixMatcher") false false (bare None);
  R "torch.random.set_rng_state" (Some "ChangePrefixMatcher") false false (bare None);
  R "torch.randperm" (Some "ChangePrefixMatcher") false false (bare None);
  R "torch.range" (Some "ChangePrefixMatcher") false false (bare None);
  R "torch.ravel" (Some "ChangePrefixMatcher") false false (bare None);
  R "torch.real" (Some "ChangePrefixMatcher") false false (bare None);
  R "torch.reciprocal" (Some "ChangePrefixMatcher") false false (bare None);
  R "torch.reciprocal_" (Some "ChangePrefixMatcher") false false (bare None);
  R "torch.relu" (Some "ChangePrefixMatcher") false false (bare None);
  R "torch.remainder" (Some "ChangePrefixMatcher") false false (bare None);
  R "torch.renorm" (Some "ChangePrefixMatcher") false false (bare None);
  R "torch.repeat_interleave" (Some "ChangePrefixMatcher") false false (bare None);
  R "torch.reshape" (Some "ChangePrefixMatcher") false false (bare None);
  R "torch.roll" (Some "ChangePrefixMatcher") false false (bare None);
  R "torch.rot90" (Some "ChangePrefixMatcher") false false (bare None);
  R "torch.round" (Some "ChangePrefixMatcher") false false (bare None);
  R "torch.row_stack" (Some "GenericMatcher") false false (MkEntry ["tensors"; "*"; "out"] [] 1 [] [("tensors", TName "x")] [] (Some "paddle.row_stack"));
  R "torch.rrelu" (Some "GenericMatcher") false false (MkEntry ["input"; "lower"; "upper"; "training"] [] 1 [] [("input", TName "x")] [] (Some "paddle.nn.functional.rrelu"));
  R "torch.rsqrt" (Some "ChangePrefixMatcher") false false (bare None);
  R "torch.rsqrt_" (Some "ChangePrefixMatcher") false false (bare None);
  R "torch.save" (Some "GenericMatcher") false false (MkEntry ["obj"; "f"; "pickle_module"; "pickle_protocol"; "_use_new_zipfile_serialization"] [] 2 [] [("f", TName "path"); ("pickle_module", TNone); ("pickle_protocol", TName "protocol"); ("_use_new_zipfile_serialization", TNone)] [] (Some "paddle.save"));
  R "torch.scalar_tensor" (Some "GenericMatcher") false false (MkEntry ["s"; "*"; "dtype"; "layout"; "device"; "requires_grad"; "pin_memory"] [] 1 [] [("s", TName "data"); ("dtype", TName "dtype"); ("device", TName "place")] [("dtype", "paddle.float32")] (Some "paddle.to_tensor"));
  R "torch.scatter" (Some "ChangePrefixMatcher") false false (bare None);
  R "torch.scatter_add" (Some "ChangePrefixMatcher") false false (bare None);
  R "torch.scatter_reduce" (Some "ChangePrefixMatcher") false false (bare None);
  R "torch.searchsorted" (Some "ChangePrefixMatcher") false false (bare None);
  R "torch.seed" (Some "ChangeAPIMatcher") false false (bare (Some "paddle.compat.seed"));
  R "torch.select" (Some "SelectMatcher") false false (MkEntry ["input"; "dim"; "index"] [] 3 [] [] [] None);
  R "torch.select_scatter" (Some "ChangePrefixMatcher") false false (bare None);
  R "torch.selu" (Some "GenericMatcher") false false (MkEntry ["input"] [] 1 [] [("input", TName "x")] [] (Some "paddle.nn.functional.selu"));
  R "torch.set_default_device" (Some "ChangePrefixMatcher") false false (bare None);
  R "torch.set_default_dtype" (Some "ChangePrefixMatcher") false false (bare None);
  R "torch.set_default_tensor_type" (Some "ChangePrefixMatcher") false false (bare None);
  R "torch.set_grad_enabled" (Some "ChangePrefixMatcher") false false (bare None);
  R "torch.set_num_interop_threads" (Some "SetNumInteropThreadsMatcher") false false (MkEntry ["int"] [] 1 [] [] [] None);
  R "torch.set_num_threads" (Some "SetNumThreadsMatcher") false false (MkEntry ["int"] [] 1 [] [] [] None);
  R "torch.set_printoptions" (Some "SetPrintOptionsMatcher") false false (MkEntry ["precision"; "threshold"; "edgeitems"; "linewidth"; "profile"; "sci_mode"] [] 0 [] [] [("precision", "4")] (Some "paddle.set_printoptions"));
  R "torch.set_rng_state" (Some "ChangePrefixMatcher") false false (bare None);
  R "torch.sgn" (Some "ChangePrefixMatcher") false false (bare None);
  R "torch.sigmoid" (Some "ChangePrefixMatcher") false false (bare None);
  R "torch.sigmoid_" (Some "ChangePrefixMatcher") false false (bare None);
  R "torch.sign" (Some "ChangePrefixMatcher") false false (bare None);
  R "torch.signal.windows.blackman" (Some "SignalWindowsWatcher") false false (MkEntry ["M"; "*"; "sym"; "dtype"; "layout"; "device"; "requires_grad"] [] 1 [] [("M", TName "win_length"); ("sym", TName "fftbins"); ("dtype", TName "dtype")] [("dtype", "'float32'"); ("fftbins", "False"); ("window", "'blackman'")] (Some "paddle.audio.functional.get_window"));
  R "torch.signal.windows.cosine" (Some "SignalWindowsWatcher") false false (MkEntry ["M"; "*"; "sym"; "dtype"; "layout"; "device"; "requires_grad"] [] 1 [] [("M", TName "win_length"); ("sym", TName "fftbins"); ("dtype", TName "dtype")] [("dtype", "'float32'"); ("fftbins", "False"); ("window", "'cosine'")] (Some "paddle.audio.functional.get_window"));
  R "torch.signal.windows.exponential" (Some "SignalWindowsWatcher") false false (MkEntry ["M"; "*"; "center"; "tau"; "sym"; "dtype"; "layout"; "device"; "requires_grad"] [] 1 ["center"] [("M", TName "win_length"); ("sym", TName "fftbins"); ("dtype", TName "dtype")] [("dtype", "'float32'"); ("fftbins", "False")] (Some "paddle.audio.functional.get_window"));
  R "torch.signal.windows.gaussian" (Some "SignalWindowsWatcher") false false (MkEntry ["M"; "*"; "std"; "sym"; "dtype"; "layout"; "device"; "requires_grad"] [] 1 [] [("M", TName "win_length"); ("sym", TName "fftbins"); ("dtype", TName "dtype")] [("dtype", "'float32'"); ("fftbins", "False")] (Some "paddle.audio.functional.get_window"));
  R "torch.signal.windows.general_cosine" (Some "SignalWindowsWatcher") false false (MkEntry ["M"; "*"; "a"; "sym"; "dtype"; "layout"; "device"; "requires_grad"] [] 1 [] [("M", TName "win_length"); ("sym", TName "fftbins"); ("dtype", TName "dtype")] [("dtype", "'float32'"); ("fftbins", "False")] (Some "paddle.audio.functional.get_window"));
  R "torch.signal.windows.general_hamming" (Some "SignalWindowsWatcher") false false (MkEntry ["M"; "*"; "alpha"; "sym"; "dtype"; "layout"; "device"; "requires_grad"] [] 1 [] [("M", TName "win_length"); ("sym", TName "fftbins"); ("dtype", TName "dtype")] [("dtype", "'float32'"); ("fftbins", "False")] (Some "paddle.audio.functional.get_window"));
  R "torch.signal.windows.hamming" (Some "SignalWindowsWatcher") false false (MkEntry ["M"; "*"; "sym"; "dtype"; "layout"; "device"; "requires_grad"] [] 1 [] [("M", TName "win_length"); ("sym", TName "fftbins"); ("dtype", TName "dtype")] [("dtype", "'float32'"); ("fftbins", "False"); ("window", "'hamming'")] (Some "paddle.audio.functional.get_window"));
  R "torch.signal.windows.hann" (Some "SignalWindowsWatcher") false false (MkEntry ["M"; "*"; "sym"; "dtype"; "layout"; "device"; "requires_grad"] [] 1 [] [("M", TName "win_length"); ("sym", TName "fftbins"); ("dtype", TName "dtype")] [("dtype", "'float32'"); ("fftbins", "False"); ("window", "'hann'")] (Some "paddle.audio.functional.get_window"));
  R "torch.signbit" (Some "ChangePrefixMatcher") false false (bare None);
  R "torch.sin" (Some "ChangePrefixMatcher") false false (bare None);
  R "torch.sin_" (Some "ChangePrefixMatcher") false false (bare None);
  R "torch.sinc" (Some "ChangePrefixMatcher") false false (bare None);
  R "torch.sinh" (Some "ChangePrefixMatcher") false false (bare None);
  R "torch.sinh_" (Some "ChangePrefixMatcher") false false (bare None);
  R "torch.slice_scatter" (Some "ChangePrefixMatcher") false false (bare None);
  R "torch.slogdet" (Some "SLogDetMatcher") false false (MkEntry ["input"; "*"; "out"] [] 1 [] [] [] (Some "paddle.linalg.slogdet"));
  R "torch.softmax" (Some "ChangePrefixMatcher") false false (bare None);
  R "torch.solve" None false false (MkEntry [] [] 2 [] [] [] None);
  R "torch.sort" (Some "ChangeAPIMatcher") false false (bare (Some "paddle.compat.sort"));
  R "torch.sparse.FloatTensor" (Some "GenericMatcher") false false (MkEntry ["indices"; "values"; "size"; "*"; "device"] [] 3 [] [("size", TName "shape"); ("device", TName "place")] [] (Some "paddle.sparse.sparse_coo_tensor"));
  R "torch.sparse.addmm" (Some "GenericMatcher") false false (MkEntry ["input"; "mat1"; "mat2"; "*"; "beta"; "alpha"] [] 3 [] [("mat1", TName "x"); ("mat2", TName "y")] [] (Some "paddle.sparse.addmm"));
  R "torch.sparse.mm" (Some "GenericMatcher") false false (MkEntry ["sparse"; "dense"] [] 2 [] [("sparse", TName "x"); ("dense", TName "y")] [] (Some "paddle.sparse.matmul"));
  R "torch.sparse.softmax" (Some "SparseSoftmaxMatcher") false false (MkEntry ["input"; "dim"; "*"; "dtype"] [] 2 [] [("input", TName "x"); ("dim", TName "axis")] [] (Some "paddle.sparse.nn.functional.softmax"));
  R "torch.sparse.sum" (Some "RequireDimMatcher") false false (MkEntry ["input"; "dim"; "dtype"] [] 1 ["dtype"] [("input", TName "x"); ("dim", TName "axis")] [] (Some "paddle.sparse.sum"));
  R "torch.sparse_coo_tensor" (Some "GenericMatcher") false false (MkEntry ["indices"; "values"; "size"; "*"; "dtype"; "device"; "requires_grad"; "check_invariants"] [] 2 [] [("size", TName "shape"); ("dtype", TName "dtype"); ("device", TName "place"); ("check_invariants", TNone)] [] (Some "paddle.sparse.sparse_coo_tensor"));
  R "torch.sparse_csr_tensor" (Some "GenericMatcher") false false (MkEntry ["crow_indices"; "col_indices"; "values"; "size"; "*"; "dtype"; "layout"; "device"; "pin_memory"; "requires_grad"; "check_invariants"] [] 3 [] [("crow_indices", TName "crows"); ("col_indices", TName "cols"); ("size", TName "shape"); ("dtype", TName "dtype"); ("layout", TNone); ("device", TName "place"); ("pin_memory", TNone); ("check_invariants", TNone)] [] (Some "paddle.sparse.sparse_csr_tensor"));
  R "torch.special.airy_ai" None false false (bare None);
  R "torch.special.bessel_j0" None false false (bare None);
  R "torch.special.bessel_j1" None false false (bare None);
  R "torch.special.bessel_y0" None false false (bare None);
  R "torch.special.bessel_y1" None false false (bare None);
  R "torch.special.digamma" (Some "GenericMatcher") false false (MkEntry ["input"; "*"; "out"] [] 1 [] [("input", TName "x")] [] (Some "paddle.digamma"));
  R "torch.special.entr" None false false (bare None);
  R "torch.special.erf" (Some "ChangePrefixMatcher") false false (bare None);
  R "torch.special.erfc" (Some "ErfCMatcher") false false (MkEntry ["input"; "*"; "out"] [] 1 [] [("input", TName "x")] [] None);
  R "torch.special.erfcx" (Some "SpecialErfcxMatcher") false false (MkEntry ["input"; "*"; "out"] [] 1 [] [] [] None)].

Definition api_mapping_17 : list row := [
  R "torch.special.erfinv" (Some "GenericMatcher") false false (MkEntry ["input"; "*"; "out"] [] 1 [] [("input", TName "x")] [] (Some "paddle.erfinv"));
  R "torch.special.exp2" (Some "Exp2Matcher") false false (MkEntry ["input"; "*"; "out"] [] 1 [] [] [] None);
  R "torch.special.expit" (Some "ExpitMatcher") false false (MkEntry ["input"; "*"; "out"] [] 1 [] [] [] None);
  R "torch.special.expm1" (Some "ChangePrefixMatcher") false false (bare None);
  R "torch.special.gammainc" (Some "GenericMatcher") false false (MkEntry ["input"; "other"; "*"; "out"] [] 0 [] [("input", TName "x"); ("other", TName "y")] [] (Some "paddle.gammainc"));
  R "torch.special.gammaincc" (Some "GenericMatcher") false false (MkEntry ["input"; "other"; "*"; "out"] [] 0 [] [("input", TName "x"); ("other", TName "y")] [] (Some "paddle.gammaincc"));
  R "torch.special.gammaln" (Some "GenericMatcher") false false (MkEntry ["input"; "*"; "out"] [] 1 [] [("input", TName "x")] [] (Some "paddle.gammaln"));
  R "torch.special.i0" (Some "ChangePrefixMatcher") false false (bare None);
  R "torch.special.i0e" (Some "ChangePrefixMatcher") false false (bare None);
  R "torch.special.i1" (Some "ChangePrefixMatcher") false false (bare None);
  R "torch.special.i1e" (Some "ChangePrefixMatcher") false false (bare None);
  R "torch.special.log1p" (Some "GenericMatcher") false false (MkEntry ["input"; "*"; "out"] [] 1 [] [("input", TName "x")] [] (Some "paddle.log1p"));
  R "torch.special.log_ndtr" None false false (bare None);
  R "torch.special.log_softmax" (Some "ChangePrefixMatcher") false false (bare None);
  R "torch.special.logit" (Some "ChangePrefixMatcher") false false (bare None);
  R "torch.special.logsumexp" (Some "ChangePrefixMatcher") false false (bare None);
  R "torch.special.multigammaln" (Some "GenericMatcher") false false (MkEntry ["input"; "p"; "*"; "out"] [] 2 [] [("input", TName "x")] [] (Some "paddle.multigammaln"));
  R "torch.special.ndtr" (Some "SpecialNdtrMatcher") false false (MkEntry ["input"; "*"; "out"] [] 1 [] [] [] None);
  R "torch.special.ndtri" (Some "SpecialNdtriMatcher") false false (MkEntry ["input"; "*"; "out"] [] 1 [] [] [] None);
  R "torch.special.polygamma" (Some "GenericMatcher") false false (MkEntry ["n"; "input"; "*"; "out"] [] 2 [] [("input", TName "x")] [] (Some "paddle.polygamma"));
  R "torch.special.psi" (Some "GenericMatcher") false false (MkEntry ["input"; "*"; "out"] [] 1 [] [("input", TName "x")] [] (Some "paddle.digamma"));
  R "torch.special.round" (Some "ChangePrefixMatcher") false false (bare None);
  R "torch.special.scaled_modified_bessel_k0" None false false (bare None);
  R "torch.special.scaled_modified_bessel_k1" None false false (bare None);
  R "torch.special.sinc" (Some "ChangePrefixMatcher") false false (bare None);
  R "torch.special.softmax" (Some "ChangePrefixMatcher") false false (bare None);
  R "torch.special.spherical_bessel_j0" None false false (bare None);
  R "torch.special.xlog1py" (Some "SpecialXLog1pYMatcher") false false (MkEntry ["input"; "other"; "*"; "out"] [] 2 [] [] [] None);
  R "torch.special.xlogy" (Some "XLogYMatcher") false false (MkEntry ["input"; "other"; "*"; "out"] [] 2 [] [] [] None);
  R "torch.special.zeta" None false false (bare None);
  R "torch.split" (Some "ChangeAPIMatcher") false false (bare (Some "paddle.compat.split"));
  R "torch.sqrt" (Some "ChangePrefixMatcher") false false (bare None);
  R "torch.sqrt_" (Some "ChangePrefixMatcher") false false (bare None);
  R "torch.square" (Some "ChangePrefixMatcher") false false (bare None);
  R "torch.square_" (Some "ChangePrefixMatcher") false false (bare None);
  R "torch.squeeze" (Some "ChangePrefixMatcher") false false (bare None);
  R "torch.stack" (Some "ChangePrefixMatcher") false false (bare None);
  R "torch.std" (Some "ChangePrefixMatcher") false false (bare None);
  R "torch.std_mean" (Some "StdMeanMatcher") false false (MkEntry ["input"; "dim"; "unbiased"; "keepdim"; "*"; "correction"] [] 1 [] [] [] None);
  R "torch.stft" (Some "StftMatcher") false false (MkEntry ["input"; "n_fft"; "hop_length"; "win_length"; "window"; "center"; "pad_mode"; "normalized"; "onesided"; "return_complex"] [] 2 [] [("input", TName "x")] [] (Some "paddle.signal.stft"));
  R "torch.sub" (Some "ChangePrefixMatcher") false false (bare None);
  R "torch.subtract" (Some "ChangePrefixMatcher") false false (bare None);
  R "torch.sum" (Some "ChangePrefixMatcher") false false (bare None);
  R "torch.svd" (Some "SvdMatcher") false false (MkEntry ["input"; "some"; "compute_uv"; "*"; "out"] [] 0 ["compute_uv"] [("input", TName "x")] [] (Some "paddle.linalg.svd"));
  R "torch.svd_lowrank" (Some "GenericMatcher") false false (MkEntry ["A"; "q"; "niter"; "M"] [] 1 [] [("A", TName "x")] [] (Some "paddle.linalg.svd_lowrank"));
  R "torch.swapaxes" (Some "ChangePrefixMatcher") false false (bare None);
  R "torch.swapdims" (Some "ChangePrefixMatcher") false false (bare None);
  R "torch.symeig" (Some "SymeigMatcher") false false (MkEntry ["input"; "eigenvectors"; "upper"; "*"; "out"] [] 1 [] [("input", TName "x"); ("upper", TName "UPLO")] [] (Some "paddle.linalg.eigh"));
  R "torch.t" (Some "ChangePrefixMatcher") false false (bare None);
  R "torch.take" (Some "ChangePrefixMatcher") false false (bare None);
  R "torch.take_along_dim" (Some "ChangePrefixMatcher") false false (bare None);
  R "torch.tan" (Some "ChangePrefixMatcher") false false (bare None);
  R "torch.tan_" (Some "ChangePrefixMatcher") false false (bare None);
  R "torch.tanh" (Some "ChangePrefixMatcher") false false (bare None);
  R "torch.tensor" (Some "ChangePrefixMatcher") false false (bare None);
  R "torch.tensor_split" (Some "ChangePrefixMatcher") false false (bare None);
  R "torch.tensordot" (Some "ChangePrefixMatcher") false false (bare None);
  R "torch.testing.assert_allclose" (Some "ChangePrefixMatcher") false false (bare None);
  R "torch.testing.assert_close" (Some "ChangePrefixMatcher") false false (bare None);
  R "torch.testing.make_tensor" (Some "MakeTMatcher") false false (MkEntry ["*shape"; "dtype"; "device"; "low"; "high"; "requires_grad"; "noncontiguous"; "exclude_zero"; "memory_format"] [] 3 [] [] [] None);
  R "torch.tile" (Some "ChangePrefixMatcher") false false (bare None);
  R "torch.topk" (Some "ChangePrefixMatcher") false false (bare None);
  R "torch.torch.int32" (Some "ChangePrefixMatcher") false false (bare None);
  R "torch.trace" (Some "GenericMatcher") false false (MkEntry ["input"] [] 1 [] [("input", TName "x")] [] (Some "paddle.trace"));
  R "torch.transpose" (Some "ChangePrefixMatcher") false false (bare None);
  R "torch.trapezoid" (Some "ChangePrefixMatcher") false false (bare None);
  R "torch.triangular_solve" (Some "TriangularSolveMatcher") false false (MkEntry ["input"; "A"; "upper"; "transpose"; "unitriangular"; "*"; "out"] [] 2 [] [("input", TName "y"); ("A", TName "x")] [] (Some "paddle.linalg.triangular_solve"));
  R "torch.tril" (Some "ChangePrefixMatcher") false false (bare None);
  R "torch.tril_indices" (Some "ChangePrefixMatcher") false false (bare None);
  R "torch.triplet_margin_loss" None false false (bare None);
  R "torch.triu" (Some "ChangePrefixMatcher") false false (bare None);
  R "torch.triu_indices" (Some "ChangePrefixMatcher") false false (bare None);
  R "torch.true_divide" (Some "ChangePrefixMatcher") false false (bare None);
  R "torch.trunc" (Some "ChangePrefixMatcher") false false (bare None);
  R "torch.unbind" (Some "ChangePrefixMatcher") false false (bare None);
  R "torch.unflatten" (Some "ChangePrefixMatcher") false false (bare None);
  R "torch.unique" (Some "ChangeAPIMatcher") false false (MkEntry ["input"; "sorted"; "return_inverse"; "return_counts"; "dim"] [] 1 [] [] [] (Some "paddle.compat.unique"));
  R "torch.unique_consecutive" (Some "ChangePrefixMatcher") false false (bare None);
  R "torch.unsqueeze" (Some "ChangePrefixMatcher") false false (bare None);
  R "torch.utils.checkpoint.checkpoint" (Some "CheckPointMatcher") false false (MkEntry [] [] 1 [] [] [] (Some "paddle.distributed.fleet.utils.recompute"));
  R "torch.utils.cpp_extension.BuildExtension" (Some "ChangePrefixMatcher") false false (bare None);
  R "torch.utils.cpp_extension.CUDAExtension" (Some "CUDAAndCppExtensionMatcher") false false (MkEntry ["name"; "sources"; "*args"; "**kwargs"] [] 2 [] [("name", TNone)] [] (Some "paddle.utils.cpp_extension.CUDAExtension"));
  R "torch.utils.cpp_extension.CppExtension" (Some "CUDAAndCppExtensionMatcher") false false (MkEntry ["name"; "sources"; "*args"; "**kwargs"] [] 2 [] [("name", TNone)] [] (Some "paddle.utils.cpp_extension.CppExtension"));
  R "torch.utils.cpp_extension.load" (Some "GenericMatcher") false false (MkEntry ["name"; "sources"; "extra_cflags"; "extra_cuda_cflags"; "extra_ldflags"; "extra_include_paths"; "build_directory"; "verbose"; "with_cuda"; "is_python_module"; "is_standalone"; "keep_intermediates"] [] 2 ["is_python_module"; "is_standalone"] [("extra_cflags", TName "extra_cxx_cflags"); ("with_cuda", TNone); ("keep_intermediates", TNone)] [] (Some "paddle.utils.cpp_extension.load"));
  R "torch.utils.data.BatchSampler" (Some "ChangePrefixMatcher") false false (bare None);
  R "torch.utils.data.ChainDataset" (Some "ChangePrefixMatcher") false false (bare None);
  R "torch.utils.data.ConcatDataset" (Some "ChangePrefixMatcher") false false (bare None);
  R "torch.utils.data.DataLoader" (Some "ChangePrefixMatcher") false false (bare None);
  R "torch.utils.data.Dataset" (Some "ChangePrefixMatcher") false false (bare None);
  R "torch.utils.data.DistributedSampler" (Some "ChangePrefixMatcher") false false (bare None);
  R "torch.utils.data.IterableDataset" (Some "ChangePrefixMatcher") false false (bare None);
  R "torch.utils.data.RandomSampler" (Some "ChangePrefixMatcher") false false (bare None);
  R "torch.utils.data.Sampler" (Some "ChangePrefixMatcher") false false (bare None);
  R "torch.utils.data.SequentialSampler" (Some "ChangePrefixMatcher") false false (bare None);
  R "torch.utils.data.Subset" (Some "ChangePrefixMatcher") false false (bare None);
  R "torch.utils.data.SubsetRandomSampler" (Some "GenericMatcher") false false (MkEntry ["indices"; "generator"] [] 1 [] [] [] (Some "paddle.io.SubsetRandomSampler"));
  R "torch.utils.data.TensorDataset" (Some "ChangePrefixMatcher") false false (bare None);
  R "torch.utils.data.WeightedRandomSampler" (Some "GenericMatcher") false false (MkEntry ["weights"; "num_samples"; "replacement"; "generator"] [] 2 [] [] [] (Some "paddle.io.WeightedRandomSampler"));
  R "torch.utils.data._utils.collate.default_collate" (Some "ChangePrefixMatcher") false false (bare None);
  R "torch.utils.data.dataloader.DataLoader" (Some "ChangePrefixMatcher") false false (bare None)].

Definition api_mapping_18 : list row := [
  R "torch.utils.data.dataloader.default_collate" (Some "ChangePrefixMatcher") false false (bare None);
  R "torch.utils.data.dataset.ChainDataset" (Some "ChangePrefixMatcher") false false (bare None);
  R "torch.utils.data.dataset.ConcatDataset" (Some "ChangePrefixMatcher") false false (bare None);
  R "torch.utils.data.dataset.Dataset" (Some "ChangePrefixMatcher") false false (bare None);
  R "torch.utils.data.dataset.IterableDataset" (Some "ChangePrefixMatcher") false false (bare None);
  R "torch.utils.data.default_collate" (Some "ChangePrefixMatcher") false false (bare None);
  R "torch.utils.data.distributed.DistributedSampler" (Some "ChangePrefixMatcher") false false (bare None);
  R "torch.utils.data.get_worker_info" (Some "ChangePrefixMatcher") false false (bare None);
  R "torch.utils.data.random_split" (Some "ChangePrefixMatcher") false false (bare None);
  R "torch.utils.data.sampler.BatchSampler" (Some "ChangePrefixMatcher") false false (bare None);
  R "torch.utils.data.sampler.RandomSampler" (Some "ChangePrefixMatcher") false false (bare None);
  R "torch.utils.data.sampler.Sampler" (Some "ChangePrefixMatcher") false false (bare None);
  R "torch.utils.data.sampler.SequentialSampler" (Some "ChangePrefixMatcher") false false (bare None);
  R "torch.utils.dlpack.from_dlpack" (Some "GenericMatcher") false false (MkEntry ["ext_tensor"] [] 1 [] [("ext_tensor", TName "dlpack")] [] (Some "paddle.utils.dlpack.from_dlpack"));
  R "torch.utils.dlpack.to_dlpack" (Some "GenericMatcher") false false (MkEntry ["tensor"] [] 0 [] [("tensor", TName "x")] [] (Some "paddle.utils.dlpack.to_dlpack"));
  R "torch.utils.set_module" (Some "UtilsSetModuleMatcher") false false (MkEntry ["obj"; "mod"] [] 2 [] [] [] (Some "paddle.io.Sampler"));
  R "torch.vander" (Some "ChangePrefixMatcher") false false (bare None);
  R "torch.var" (Some "ChangePrefixMatcher") false false (bare None);
  R "torch.var_mean" (Some "VarMeanMatcher") false false (MkEntry ["input"; "dim"; "unbiased"; "keepdim"; "*"; "correction"] [] 1 [] [] [] None);
  R "torch.vdot" (Some "GenericMatcher") false false (MkEntry ["input"; "other"; "*"; "out"] [] 2 [] [("input", TName "x"); ("other", TName "y")] [] (Some "paddle.dot"));
  R "torch.view_as_complex" (Some "ChangePrefixMatcher") false false (bare None);
  R "torch.view_as_real" (Some "ChangePrefixMatcher") false false (bare None);
  R "torch.vsplit" (Some "GenericMatcher") false false (MkEntry ["input"; "indices"] ["sections"] 0 [] [("input", TName "x"); ("indices", TName "num_or_indices"); ("sections", TName "num_or_indices")] [] (Some "paddle.vsplit"));
  R "torch.vstack" (Some "ChangePrefixMatcher") false false (bare None);
  R "torch.where" (Some "ChangePrefixMatcher") false false (bare None);
  R "torch.zeros" (Some "ChangePrefixMatcher") false false (bare None);
  R "torch.zeros_like" (Some "ChangePrefixMatcher") false false (bare None);
  R "torchvision.datasets.CIFAR10" (Some "CifarMatcher") false false (MkEntry ["root"; "train"; "transform"; "target_transform"; "download"] [] 0 ["target_transform"] [] [] (Some "paddle.vision.datasets.Cifar10"));
  R "torchvision.datasets.CIFAR100" (Some "CifarMatcher") false false (MkEntry ["root"; "train"; "transform"; "target_transform"; "download"] [] 0 ["target_transform"] [] [] (Some "paddle.vision.datasets.Cifar100"));
  R "torchvision.datasets.FashionMNIST" (Some "MNISTMatcher") false false (MkEntry ["root"; "train"; "transform"; "target_transform"; "download"] [] 0 ["target_transform"] [] [] (Some "paddle.vision.datasets.FashionMNIST"));
  R "torchvision.datasets.Flowers102" (Some "Flowers102Matcher") false false (MkEntry ["root"; "split"; "transform"; "target_transform"; "download"] [] 0 ["target_transform"] [] [] (Some "paddle.vision.datasets.Flowers"));
  R "torchvision.datasets.ImageFolder" (Some "GenericMatcher") false false (MkEntry ["root"; "transform"; "target_transform"; "loader"; "is_valid_file"; "allow_empty"] [] 0 ["target_transform"] [("allow_empty", TNone)] [] (Some "paddle.vision.datasets.ImageFolder"));
  R "torchvision.datasets.MNIST" (Some "MNISTMatcher") false false (MkEntry ["root"; "train"; "transform"; "target_transform"; "download"] [] 0 ["target_transform"] [] [] (Some "paddle.vision.datasets.MNIST"));
  R "torchvision.datasets.VOCDetection" (Some "VOCDetectionMatcher") false false (MkEntry ["root"; "year"; "image_set"; "download"; "transform"; "target_transform"; "transforms"] [] 0 ["year"; "target_transform"; "transforms"] [] [] (Some "paddle.vision.datasets.VOC2012"));
  R "torchvision.io.ImageReadMode.GRAY" (Some "ChangeAPIMatcher") false false (bare (Some "'gray'"));
  R "torchvision.io.ImageReadMode.RGB" (Some "ChangeAPIMatcher") false false (bare (Some "'rgb'"));
  R "torchvision.io.ImageReadMode.UNCHANGED" (Some "ChangeAPIMatcher") false false (bare (Some "'unchanged'"));
  R "torchvision.io.decode_jpeg" (Some "DecodeJpegMatcher") false false (MkEntry ["input"; "mode"; "device"; "apply_exif_orientation"] [] 0 ["apply_exif_orientation"] [("input", TName "x")] [] (Some "paddle.vision.ops.decode_jpeg"));
  R "torchvision.io.read_file" (Some "GenericMatcher") false false (MkEntry ["path"] [] 0 [] [("path", TName "filename")] [] (Some "paddle.vision.ops.read_file"));
  R "torchvision.models.AlexNet_Weights.DEFAULT" (Some "ChangeAPIMatcher") false false (bare (Some "'DEFAULT'"));
  R "torchvision.models.AlexNet_Weights.IMAGENET1K_V1" (Some "ChangeAPIMatcher") false false (bare (Some "'IMAGENET1K_V1'"));
  R "torchvision.models.DenseNet121_Weights.DEFAULT" (Some "ChangeAPIMatcher") false false (bare (Some "'DEFAULT'"));
  R "torchvision.models.DenseNet121_Weights.IMAGENET1K_V1" (Some "ChangeAPIMatcher") false false (bare (Some "'IMAGENET1K_V1'"));
  R "torchvision.models.DenseNet161_Weights.DEFAULT" (Some "ChangeAPIMatcher") false false (bare (Some "'DEFAULT'"));
  R "torchvision.models.DenseNet161_Weights.IMAGENET1K_V1" (Some "ChangeAPIMatcher") false false (bare (Some "'IMAGENET1K_V1'"));
  R "torchvision.models.DenseNet169_Weights.DEFAULT" (Some "ChangeAPIMatcher") false false (bare (Some "'DEFAULT'"));
  R "torchvision.models.DenseNet169_Weights.IMAGENET1K_V1" (Some "ChangeAPIMatcher") false false (bare (Some "'IMAGENET1K_V1'"));
  R "torchvision.models.DenseNet201_Weights.DEFAULT" (Some "ChangeAPIMatcher") false false (bare (Some "'DEFAULT'"));
  R "torchvision.models.DenseNet201_Weights.IMAGENET1K_V1" (Some "ChangeAPIMatcher") false false (bare (Some "'IMAGENET1K_V1'"));
  R "torchvision.models.GoogLeNet_Weights.DEFAULT" (Some "ChangeAPIMatcher") false false (bare (Some "'DEFAULT'"));
  R "torchvision.models.GoogLeNet_Weights.IMAGENET1K_V1" (Some "ChangeAPIMatcher") false false (bare (Some "'IMAGENET1K_V1'"));
  R "torchvision.models.Inception3" (Some "GenericMatcher") false false (MkEntry ["num_classes"; "aux_logits"; "transform_input"; "inception_blocks"; "init_weights"; "dropout"] [] 0 ["transform_input"; "inception_blocks"; "dropout"] [("aux_logits", TNone); ("init_weights", TNone)] [] (Some "paddle.vision.models.InceptionV3"));
  R "torchvision.models.Inception_V3_Weights.DEFAULT" (Some "ChangeAPIMatcher") false false (bare (Some "'DEFAULT'"));
  R "torchvision.models.Inception_V3_Weights.IMAGENET1K_V1" (Some "ChangeAPIMatcher") false false (bare (Some "'IMAGENET1K_V1'"));
  R "torchvision.models.MobileNet_V2_Weights.DEFAULT" (Some "ChangeAPIMatcher") false false (bare (Some "'DEFAULT'"));
  R "torchvision.models.MobileNet_V2_Weights.IMAGENET1K_V1" (Some "ChangeAPIMatcher") false false (bare (Some "'IMAGENET1K_V1'"));
  R "torchvision.models.MobileNet_V2_Weights.IMAGENET1K_V2" (Some "ChangeAPIMatcher") false false (bare (Some "'IMAGENET1K_V2'"));
  R "torchvision.models.MobileNet_V3_Large_Weights.DEFAULT" (Some "ChangeAPIMatcher") false false (bare (Some "'DEFAULT'"));
  R "torchvision.models.MobileNet_V3_Large_Weights.IMAGENET1K_V1" (Some "ChangeAPIMatcher") false false (bare (Some "'IMAGENET1K_V1'"));
  R "torchvision.models.MobileNet_V3_Large_Weights.IMAGENET1K_V2" (Some "ChangeAPIMatcher") false false (bare (Some "'IMAGENET1K_V2'"));
  R "torchvision.models.MobileNet_V3_Small_Weights.DEFAULT" (Some "ChangeAPIMatcher") false false (bare (Some "'DEFAULT'"));
  R "torchvision.models.MobileNet_V3_Small_Weights.IMAGENET1K_V1" (Some "ChangeAPIMatcher") false false (bare (Some "'IMAGENET1K_V1'"));
  R "torchvision.models.ResNeXt50_32X4D_Weights.DEFAULT" (Some "ChangeAPIMatcher") false false (bare (Some "'DEFAULT'"));
  R "torchvision.models.ResNeXt50_32X4D_Weights.IMAGENET1K_V1" (Some "ChangeAPIMatcher") false false (bare (Some "'IMAGENET1K_V1'"));
  R "torchvision.models.ResNeXt50_32X4D_Weights.IMAGENET1K_V2" (Some "ChangeAPIMatcher") false false (bare (Some "'IMAGENET1K_V2'"));
  R "torchvision.models.ResNet101_Weights.DEFAULT" (Some "ChangeAPIMatcher") false false (bare (Some "'DEFAULT'"));
  R "torchvision.models.ResNet101_Weights.IMAGENET1K_V1" (Some "ChangeAPIMatcher") false false (bare (Some "'IMAGENET1K_V1'"));
  R "torchvision.models.ResNet101_Weights.IMAGENET1K_V2" (Some "ChangeAPIMatcher") false false (bare (Some "'IMAGENET1K_V2'"));
  R "torchvision.models.ResNet152_Weights.DEFAULT" (Some "ChangeAPIMatcher") false false (bare (Some "'DEFAULT'"));
  R "torchvision.models.ResNet152_Weights.IMAGENET1K_V1" (Some "ChangeAPIMatcher") false false (bare (Some "'IMAGENET1K_V1'"));
  R "torchvision.models.ResNet152_Weights.IMAGENET1K_V2" (Some "ChangeAPIMatcher") false false (bare (Some "'IMAGENET1K_V2'"));
  R "torchvision.models.ResNet18_Weights.DEFAULT" (Some "ChangeAPIMatcher") false false (bare (Some "'DEFAULT'"));
  R "torchvision.models.ResNet18_Weights.IMAGENET1K_V1" (Some "ChangeAPIMatcher") false false (bare (Some "'IMAGENET1K_V1'"));
  R "torchvision.models.ResNet34_Weights.DEFAULT" (Some "ChangeAPIMatcher") false false (bare (Some "'DEFAULT'"));
  R "torchvision.models.ResNet34_Weights.IMAGENET1K_V1" (Some "ChangeAPIMatcher") false false (bare (Some "'IMAGENET1K_V1'"));
  R "torchvision.models.ResNet50_Weights.DEFAULT" (Some "ChangeAPIMatcher") false false (bare (Some "'DEFAULT'"));
  R "torchvision.models.ResNet50_Weights.IMAGENET1K_V1" (Some "ChangeAPIMatcher") false false (bare (Some "'IMAGENET1K_V1'"));
  R "torchvision.models.ResNet50_Weights.IMAGENET1K_V2" (Some "ChangeAPIMatcher") false false (bare (Some "'IMAGENET1K_V2'"));
  R "torchvision.models.ShuffleNet_V2_X0_5_Weights.DEFAULT" (Some "ChangeAPIMatcher") false false (bare (Some "'DEFAULT'"));
  R "torchvision.models.ShuffleNet_V2_X0_5_Weights.IMAGENET1K_V1" (Some "ChangeAPIMatcher") false false (bare (Some "'IMAGENET1K_V1'"));
  R "torchvision.models.ShuffleNet_V2_X1_0_Weights.DEFAULT" (Some "ChangeAPIMatcher") false false (bare (Some "'DEFAULT'"));
  R "torchvision.models.ShuffleNet_V2_X1_0_Weights.IMAGENET1K_V1" (Some "ChangeAPIMatcher") false false (bare (Some "'IMAGENET1K_V1'"));
  R "torchvision.models.ShuffleNet_V2_X1_5_Weights.DEFAULT" (Some "ChangeAPIMatcher") false false (bare (Some "'DEFAULT'"));
  R "torchvision.models.ShuffleNet_V2_X1_5_Weights.IMAGENET1K_V1" (Some "ChangeAPIMatcher") false false (bare (Some "'IMAGENET1K_V1'"));
  R "torchvision.models.ShuffleNet_V2_X2_0_Weights.DEFAULT" (Some "ChangeAPIMatcher") false false (bare (Some "'DEFAULT'"));
  R "torchvision.models.ShuffleNet_V2_X2_0_Weights.IMAGENET1K_V1" (Some "ChangeAPIMatcher") false false (bare (Some "'IMAGENET1K_V1'"));
  R "torchvision.models.SqueezeNet1_0_Weights.DEFAULT" (Some "ChangeAPIMatcher") false false (bare (Some "'DEFAULT'"));
  R "torchvision.models.SqueezeNet1_0_Weights.IMAGENET1K_V1" (Some "ChangeAPIMatcher") false false (bare (Some "'IMAGENET1K_V1'"));
  R "torchvision.models.SqueezeNet1_1_Weights.DEFAULT" (Some "ChangeAPIMatcher") false false (bare (Some "'DEFAULT'"));
  R "torchvision.models.SqueezeNet1_1_Weights.IMAGENET1K_V1" (Some "ChangeAPIMatcher") false false (bare (Some "'IMAGENET1K_V1'"));
  R "torchvision.models.VGG11_BN_Weights.DEFAULT" (Some "ChangeAPIMatcher") false false (bare (Some "'DEFAULT'"));
  R "torchvision.models.VGG11_BN_Weights.IMAGENET1K_V1" (Some "ChangeAPIMatcher") false false (bare (Some "'IMAGENET1K_V1'"));
  R "torchvision.models.VGG11_Weights.DEFAULT" (Some "ChangeAPIMatcher") false false (bare (Some "'DEFAULT'"));
  R "torchvision.models.VGG11_Weights.IMAGENET1K_V1" (Some "ChangeAPIMatcher") false false (bare (Some "'IMAGENET1K_V1'"));
  R "torchvision.models.VGG13_BN_Weights.DEFAULT" (Some "ChangeAPIMatcher") false false (bare (Some "'DEFAULT'"));
  R "torchvision.models.VGG13_BN_Weights.IMAGENET1K_V1" (Some "ChangeAPIMatcher") false false (bare (Some "'IMAGENET1K_V1'"));
  R "torchvision.models.VGG13_Weights.DEFAULT" (Some "ChangeAPIMatcher") false false (bare (Some "'DEFAULT'"));
  R "torchvision.models.VGG13_Weights.IMAGENET1K_V1" (Some "ChangeAPIMatcher") false false (bare (Some "'IMAGENET1K_V1'"));
  R "torchvision.models.VGG16_BN_Weights.DEFAULT" (Some "ChangeAPIMatcher") false false (bare (Some "'DEFAULT'"));
  R "torchvision.models.VGG16_BN_Weights.IMAGENET1K_V1" (Some "ChangeAPIMatcher") false false (bare (Some "'IMAGENET1K_V1'"))].

Definition api_mapping_19 : list row := [
  R "torchvision.models.VGG16_Weights.DEFAULT" (Some "ChangeAPIMatcher") false false (bare (Some "'DEFAULT'"));
  R "torchvision.models.VGG16_Weights.IMAGENET1K_FEATURES" (Some "ChangeAPIMatcher") false false (bare (Some "'IMAGENET1K_FEATURES'"));
  R "torchvision.models.VGG16_Weights.IMAGENET1K_V1" (Some "ChangeAPIMatcher") false false (bare (Some "'IMAGENET1K_V1'"));
  R "torchvision.models.VGG19_BN_Weights.DEFAULT" (Some "ChangeAPIMatcher") false false (bare (Some "'DEFAULT'"));
  R "torchvision.models.VGG19_BN_Weights.IMAGENET1K_V1" (Some "ChangeAPIMatcher") false false (bare (Some "'IMAGENET1K_V1'"));
  R "torchvision.models.VGG19_Weights.DEFAULT" (Some "ChangeAPIMatcher") false false (bare (Some "'DEFAULT'"));
  R "torchvision.models.VGG19_Weights.IMAGENET1K_V1" (Some "ChangeAPIMatcher") false false (bare (Some "'IMAGENET1K_V1'"));
  R "torchvision.models.Wide_ResNet101_2_Weights.DEFAULT" (Some "ChangeAPIMatcher") false false (bare (Some "'DEFAULT'"));
  R "torchvision.models.Wide_ResNet101_2_Weights.IMAGENET1K_V1" (Some "ChangeAPIMatcher") false false (bare (Some "'IMAGENET1K_V1'"));
  R "torchvision.models.Wide_ResNet101_2_Weights.IMAGENET1K_V2" (Some "ChangeAPIMatcher") false false (bare (Some "'IMAGENET1K_V2'"));
  R "torchvision.models.Wide_ResNet50_2_Weights.DEFAULT" (Some "ChangeAPIMatcher") false false (bare (Some "'DEFAULT'"));
  R "torchvision.models.Wide_ResNet50_2_Weights.IMAGENET1K_V1" (Some "ChangeAPIMatcher") false false (bare (Some "'IMAGENET1K_V1'"));
  R "torchvision.models.Wide_ResNet50_2_Weights.IMAGENET1K_V2" (Some "ChangeAPIMatcher") false false (bare (Some "'IMAGENET1K_V2'"));
  R "torchvision.models.alexnet" (Some "WeightsMatcher") false false (MkEntry ["weights"; "progress"; "pretrained"] [] 0 [] [("progress", TNone)] [] (Some "paddle.vision.models.alexnet"));
  R "torchvision.models.densenet121" (Some "WeightsMatcher") false false (MkEntry ["weights"; "progress"; "pretrained"] [] 0 [] [("progress", TNone)] [] (Some "paddle.vision.models.densenet121"));
  R "torchvision.models.densenet161" (Some "WeightsMatcher") false false (MkEntry ["weights"; "progress"; "pretrained"] [] 0 [] [("progress", TNone)] [] (Some "paddle.vision.models.densenet161"));
  R "torchvision.models.densenet169" (Some "WeightsMatcher") false false (MkEntry ["weights"; "progress"; "pretrained"] [] 0 [] [("progress", TNone)] [] (Some "paddle.vision.models.densenet169"));
  R "torchvision.models.densenet201" (Some "WeightsMatcher") false false (MkEntry ["weights"; "progress"; "pretrained"] [] 0 [] [("progress", TNone)] [] (Some "paddle.vision.models.densenet201"));
  R "torchvision.models.googlenet" (Some "WeightsMatcher") false false (MkEntry ["weights"; "progress"; "pretrained"] [] 0 [] [("progress", TNone)] [] (Some "paddle.vision.models.googlenet"));
  R "torchvision.models.inception.InceptionA" (Some "GenericMatcher") false false (MkEntry ["in_channels"; "pool_features"; "conv_block"] [] 2 ["conv_block"] [("in_channels", TName "num_channels")] [] (Some "paddle.vision.models.inceptionv3.InceptionA"));
  R "torchvision.models.inception.InceptionB" (Some "GenericMatcher") false false (MkEntry ["in_channels"; "conv_block"] [] 1 ["conv_block"] [("in_channels", TName "num_channels")] [] (Some "paddle.vision.models.inceptionv3.InceptionB"));
  R "torchvision.models.inception.InceptionC" (Some "GenericMatcher") false false (MkEntry ["in_channels"; "channels_7x7"; "conv_block"] [] 2 ["conv_block"] [("in_channels", TName "num_channels")] [] (Some "paddle.vision.models.inceptionv3.InceptionC"));
  R "torchvision.models.inception.InceptionD" (Some "GenericMatcher") false false (MkEntry ["in_channels"; "conv_block"] [] 1 ["conv_block"] [("in_channels", TName "num_channels")] [] (Some "paddle.vision.models.inceptionv3.InceptionD"));
  R "torchvision.models.inception.InceptionE" (Some "GenericMatcher") false false (MkEntry ["in_channels"; "conv_block"] [] 1 ["conv_block"] [("in_channels", TName "num_channels")] [] (Some "paddle.vision.models.inceptionv3.InceptionE"));
  R "torchvision.models.inception_v3" (Some "WeightsMatcher") false false (MkEntry ["weights"; "progress"; "pretrained"; "**kwargs"] [] 0 ["transform_input"; "inception_blocks"; "dropout"] [("progress", TNone); ("aux_logits", TNone); ("init_weights", TNone)] [] (Some "paddle.vision.models.inception_v3"));
  R "torchvision.models.mobilenet_v2" (Some "WeightsMatcher") false false (MkEntry ["weights"; "progress"; "pretrained"] [] 0 [] [("progress", TNone)] [] (Some "paddle.vision.models.mobilenet_v2"));
  R "torchvision.models.mobilenet_v3_large" (Some "WeightsMatcher") false false (MkEntry ["weights"; "progress"; "pretrained"] [] 0 [] [("progress", TNone)] [] (Some "paddle.vision.models.mobilenet_v3_large"));
  R "torchvision.models.mobilenet_v3_small" (Some "WeightsMatcher") false false (MkEntry ["weights"; "progress"; "pretrained"] [] 0 [] [("progress", TNone)] [] (Some "paddle.vision.models.mobilenet_v3_small"));
  R "torchvision.models.resnet101" (Some "WeightsMatcher") false false (MkEntry ["weights"; "progress"; "pretrained"] [] 0 [] [("progress", TNone)] [] (Some "paddle.vision.models.resnet101"));
  R "torchvision.models.resnet152" (Some "WeightsMatcher") false false (MkEntry ["weights"; "progress"; "pretrained"] [] 0 [] [("progress", TNone)] [] (Some "paddle.vision.models.resnet152"));
  R "torchvision.models.resnet18" (Some "WeightsMatcher") false false (MkEntry ["weights"; "progress"; "pretrained"] [] 0 [] [("progress", TNone)] [] (Some "paddle.vision.models.resnet18"));
  R "torchvision.models.resnet34" (Some "WeightsMatcher") false false (MkEntry ["weights"; "progress"; "pretrained"] [] 0 [] [("progress", TNone)] [] (Some "paddle.vision.models.resnet34"));
  R "torchvision.models.resnet50" (Some "WeightsMatcher") false false (MkEntry ["weights"; "progress"; "pretrained"] [] 0 [] [("progress", TNone)] [] (Some "paddle.vision.models.resnet50"));
  R "torchvision.models.resnext101_64x4d" (Some "WeightsMatcher") false false (MkEntry ["weights"; "progress"; "pretrained"] [] 0 [] [("progress", TNone)] [] (Some "paddle.vision.models.resnext101_64x4d"));
  R "torchvision.models.resnext50_32x4d" (Some "WeightsMatcher") false false (MkEntry ["weights"; "progress"; "pretrained"] [] 0 [] [("progress", TNone)] [] (Some "paddle.vision.models.resnext50_32x4d"));
  R "torchvision.models.shufflenet_v2_x0_5" (Some "WeightsMatcher") false false (MkEntry ["weights"; "progress"; "pretrained"] [] 0 [] [("progress", TNone)] [] (Some "paddle.vision.models.shufflenet_v2_x0_5"));
  R "torchvision.models.shufflenet_v2_x1_0" (Some "WeightsMatcher") false false (MkEntry ["weights"; "progress"; "pretrained"] [] 0 [] [("progress", TNone)] [] (Some "paddle.vision.models.shufflenet_v2_x1_0"));
  R "torchvision.models.shufflenet_v2_x1_5" (Some "WeightsMatcher") false false (MkEntry ["weights"; "progress"; "pretrained"] [] 0 [] [("progress", TNone)] [] (Some "paddle.vision.models.shufflenet_v2_x1_5"));
  R "torchvision.models.shufflenet_v2_x2_0" (Some "WeightsMatcher") false false (MkEntry ["weights"; "progress"; "pretrained"] [] 0 [] [("progress", TNone)] [] (Some "paddle.vision.models.shufflenet_v2_x2_0"));
  R "torchvision.models.squeezenet1_0" (Some "WeightsMatcher") false false (MkEntry ["weights"; "progress"; "pretrained"] [] 0 [] [("progress", TNone)] [] (Some "paddle.vision.models.squeezenet1_0"));
  R "torchvision.models.squeezenet1_1" (Some "WeightsMatcher") false false (MkEntry ["weights"; "progress"; "pretrained"] [] 0 [] [("progress", TNone)] [] (Some "paddle.vision.models.squeezenet1_1"));
  R "torchvision.models.vgg11" (Some "VGGMatcher") false false (MkEntry ["weights"; "progress"; "pretrained"] [] 0 [] [("progress", TNone)] [] (Some "paddle.vision.models.vgg11"));
  R "torchvision.models.vgg11_bn" (Some "VGGMatcher") false false (MkEntry ["weights"; "progress"; "pretrained"] [] 0 [] [("progress", TNone)] [] (Some "paddle.vision.models.vgg11"));
  R "torchvision.models.vgg13" (Some "VGGMatcher") false false (MkEntry ["weights"; "progress"; "pretrained"] [] 0 [] [("progress", TNone)] [] (Some "paddle.vision.models.vgg13"));
  R "torchvision.models.vgg13_bn" (Some "VGGMatcher") false false (MkEntry ["weights"; "progress"; "pretrained"] [] 0 [] [("progress", TNone)] [] (Some "paddle.vision.models.vgg13"));
  R "torchvision.models.vgg16" (Some "VGGMatcher") false false (MkEntry ["weights"; "progress"; "pretrained"] [] 0 [] [("progress", TNone)] [] (Some "paddle.vision.models.vgg16"));
  R "torchvision.models.vgg16_bn" (Some "VGGMatcher") false false (MkEntry ["weights"; "progress"; "pretrained"] [] 0 [] [("progress", TNone)] [] (Some "paddle.vision.models.vgg16"));
  R "torchvision.models.vgg19" (Some "VGGMatcher") false false (MkEntry ["weights"; "progress"; "pretrained"] [] 0 [] [("progress", TNone)] [] (Some "paddle.vision.models.vgg19"));
  R "torchvision.models.vgg19_bn" (Some "VGGMatcher") false false (MkEntry ["weights"; "progress"; "pretrained"] [] 0 [] [("progress", TNone)] [] (Some "paddle.vision.models.vgg19"));
  R "torchvision.models.wide_resnet101_2" (Some "WeightsMatcher") false false (MkEntry ["weights"; "progress"; "pretrained"] [] 0 [] [("progress", TNone)] [] (Some "paddle.vision.models.wide_resnet101_2"));
  R "torchvision.models.wide_resnet50_2" (Some "WeightsMatcher") false false (MkEntry ["weights"; "progress"; "pretrained"] [] 0 [] [("progress", TNone)] [] (Some "paddle.vision.models.wide_resnet50_2"));
  R "torchvision.ops.DeformConv2d" (Some "GenericMatcher") false false (MkEntry ["in_channels"; "out_channels"; "kernel_size"; "stride"; "padding"; "dilation"; "groups"; "bias"] [] 0 [] [("bias", TName "bias_attr")] [] (Some "paddle.vision.ops.DeformConv2D"));
  R "torchvision.ops.RoIAlign" (Some "GenericMatcher") false false (MkEntry ["output_size"; "spatial_scale"; "sampling_ratio"; "aligned"] [] 0 ["sampling_ratio"; "aligned"] [] [] (Some "paddle.vision.ops.RoIAlign"));
  R "torchvision.ops.RoIPool" (Some "ChangeAPIMatcher") false false (bare (Some "paddle.vision.ops.RoIPool"));
  R "torchvision.ops.deform_conv2d" (Some "GenericMatcher") false false (MkEntry ["input"; "offset"; "weight"; "bias"; "stride"; "padding"; "dilation"; "mask"] [] 0 [] [("input", TName "x")] [] (Some "paddle.vision.ops.deform_conv2d"));
  R "torchvision.ops.nms" (Some "GenericMatcher") false false (MkEntry ["boxes"; "scores"; "iou_threshold"] [] 0 [] [] [] (Some "paddle.vision.ops.nms"));
  R "torchvision.ops.ps_roi_pool" (Some "BoxesConvertMatcher") false false (MkEntry ["input"; "boxes"; "output_size"; "spatial_scale"] [] 0 [] [] [] (Some "paddle.vision.ops.psroi_pool"));
  R "torchvision.ops.roi_align" (Some "BoxesConvertMatcher") false false (MkEntry ["input"; "boxes"; "output_size"; "spatial_scale"; "sampling_ratio"; "aligned"] [] 0 [] [] [] (Some "paddle.vision.ops.roi_align"));
  R "torchvision.ops.roi_pool" (Some "BoxesConvertMatcher") false false (MkEntry ["input"; "boxes"; "output_size"; "spatial_scale"] [] 0 [] [] [] (Some "paddle.vision.ops.roi_pool"));
  R "torchvision.transforms.CenterCrop" (Some "ChangeAPIMatcher") false false (MkEntry ["size"] [] 0 [] [] [] (Some "paddle.vision.transforms.CenterCrop"));
  R "torchvision.transforms.ColorJitter" (Some "ChangeAPIMatcher") false false (MkEntry ["brightness"; "contrast"; "saturation"; "hue"] [] 0 [] [] [] (Some "paddle.vision.transforms.ColorJitter"));
  R "torchvision.transforms.Compose" (Some "ChangeAPIMatcher") false false (bare (Some "paddle.vision.transforms.Compose"));
  R "torchvision.transforms.Grayscale" (Some "ChangeAPIMatcher") false false (MkEntry ["num_output_channels"] [] 0 [] [] [] (Some "paddle.vision.transforms.Grayscale"));
  R "torchvision.transforms.InterpolationMode.BICUBIC" (Some "ChangeAPIMatcher") false false (bare (Some "'bicubic'"));
  R "torchvision.transforms.InterpolationMode.BILINEAR" (Some "ChangeAPIMatcher") false false (bare (Some "'bilinear'"));
  R "torchvision.transforms.InterpolationMode.BOX" (Some "ChangeAPIMatcher") false false (bare (Some "'box'"));
  R "torchvision.transforms.InterpolationMode.HAMMING" (Some "ChangeAPIMatcher") false false (bare (Some "'hamming'"));
  R "torchvision.transforms.InterpolationMode.LANCZOS" (Some "ChangeAPIMatcher") false false (bare (Some "'lanczos'"));
  R "torchvision.transforms.InterpolationMode.NEAREST" (Some "ChangeAPIMatcher") false false (bare (Some "'nearest'"));
  R "torchvision.transforms.InterpolationMode.NEAREST_EXACT" (Some "ChangeAPIMatcher") false false (bare (Some "'nearest_exact'"));
  R "torchvision.transforms.Normalize" (Some "GenericMatcher") false false (MkEntry ["mean"; "std"; "inplace"] [] 0 [] [] [] (Some "paddle.vision.transforms.Normalize"));
  R "torchvision.transforms.Pad" (Some "ChangeAPIMatcher") false false (MkEntry ["padding"; "fill"; "padding_mode"] [] 0 [] [] [] (Some "paddle.vision.transforms.Pad"));
  R "torchvision.transforms.RandomAffine" (Some "ChangeAPIMatcher") false false (MkEntry ["degrees"; "translate"; "scale"; "shear"; "interpolation"; "fill"; "center"] [] 0 [] [] [] (Some "paddle.vision.transforms.RandomAffine"));
  R "torchvision.transforms.RandomCrop" (Some "ChangeAPIMatcher") false false (MkEntry ["size"; "padding"; "pad_if_needed"; "fill"; "padding_mode"] [] 0 [] [] [] (Some "paddle.vision.transforms.RandomCrop"));
  R "torchvision.transforms.RandomErasing" (Some "GenericMatcher") false false (MkEntry ["p"; "scale"; "ratio"; "value"; "inplace"] [] 0 [] [("p", TName "prob")] [] (Some "paddle.vision.transforms.RandomErasing"));
  R "torchvision.transforms.RandomHorizontalFlip" (Some "GenericMatcher") false false (MkEntry ["p"] [] 0 [] [("p", TName "prob")] [] (Some "paddle.vision.transforms.RandomHorizontalFlip"));
  R "torchvision.transforms.RandomPerspective" (Some "GenericMatcher") false false (MkEntry ["distortion_scale"; "p"; "interpolation"; "fill"] [] 0 [] [("p", TName "prob")] [] (Some "paddle.vision.transforms.RandomPerspective"));
  R "torchvision.transforms.RandomResizedCrop" (Some "GenericMatcher") false false (MkEntry ["size"; "scale"; "ratio"; "interpolation"; "antialias"] [] 0 ["antialias"] [] [] (Some "paddle.vision.transforms.RandomResizedCrop"));
  R "torchvision.transforms.RandomRotation" (Some "ChangeAPIMatcher") false false (MkEntry ["degrees"; "interpolation"; "expand"; "center"; "fill"] [] 0 [] [] [] (Some "paddle.vision.transforms.RandomRotation"));
  R "torchvision.transforms.RandomVerticalFlip" (Some "GenericMatcher") false false (MkEntry ["p"] [] 0 [] [("p", TName "prob")] [] (Some "paddle.vision.transforms.RandomVerticalFlip"));
  R "torchvision.transforms.Resize" (Some "GenericMatcher") false false (MkEntry ["size"; "interpolation"; "max_size"; "antialias"] [] 0 ["max_size"; "antialias"] [] [] (Some "paddle.vision.transforms.Resize"));
  R "torchvision.transforms.ToTensor" (Some "ChangeAPIMatcher") false false (bare (Some "paddle.vision.transforms.ToTensor"));
  R "torchvision.transforms.functional.adjust_brightness" (Some "ChangeAPIMatcher") false false (bare (Some "paddle.vision.transforms.adjust_brightness"));
  R "torchvision.transforms.functional.adjust_contrast" (Some "ChangeAPIMatcher") false false (bare (Some "paddle.vision.transforms.adjust_contrast"));
  R "torchvision.transforms.functional.adjust_hue" (Some "ChangeAPIMatcher") false false (bare (Some "paddle.vision.transforms.adjust_hue"));
  R "torchvision.transforms.functional.affine" (Some "ChangeAPIMatcher") false false (MkEntry ["img"; "angle"; "translate"; "scale"; "shear"; "interpolation"; "fill"; "center"] [] 0 [] [] [] (Some "paddle.vision.transforms.affine"));
  R "torchvision.transforms.functional.center_crop" (Some "ChangeAPIMatcher") false false (bare (Some "paddle.vision.transforms.center_crop"));
  R "torchvision.transforms.functional.crop" (Some "ChangeAPIMatcher") false false (bare (Some "paddle.vision.transforms.crop"));
  R "torchvision.transforms.functional.erase" (Some "ChangeAPIMatcher") false false (bare (Some "paddle.vision.transforms.erase"));
  R "torchvision.transforms.functional.hflip" (Some "ChangeAPIMatcher") false false (bare (Some "paddle.vision.transforms.hflip"));
  R "torchvision.transforms.functional.normalize" (Some "GenericMatcher") false false (MkEntry ["tensor"; "mean"; "std"; "inplace"] [] 0 [] [("tensor", TName "img")] [] (Some "paddle.vision.transforms.normalize"));
  R "torchvision.transforms.functional.pad" (Some "ChangeAPIMatcher") false false (bare (Some "paddle.vision.transforms.pad"));
  R "torchvision.transforms.functional.perspective" (Some "ChangeAPIMatcher") false false (MkEntry ["img"; "startpoints"; "endpoints"; "interpolation"; "fill"] [] 0 [] [] [] (Some "paddle.vision.transforms.perspective"));
  R "torchvision.transforms.functional.resize" (Some "GenericMatcher") false false (MkEntry ["img"; "size"; "interpolation"; "max_size"; "antialias"] [] 0 ["max_size"; "antialias"] [] [] (Some "paddle.vision.transforms.resize"));
  R "torchvision.transforms.functional.rotate" (Some "ChangeAPIMatcher") false false (MkEntry ["img"; "angle"; "interpolation"; "expand"; "center"; "fill"] [] 0 [] [] [] (Some "paddle.vision.transforms.rotate"));
  R "torchvision.transforms.functional.to_grayscale" (Some "ChangeAPIMatcher") false false (bare (Some "paddle.vision.transforms.to_grayscale"));
  R "torchvision.transforms.functional.to_tensor" (Some "ChangeAPIMatcher") false false (MkEntry ["pic"] [] 0 [] [] [] (Some "paddle.vision.transforms.to_tensor"));
  R "torchvision.transforms.functional.vflip" (Some "ChangeAPIMatcher") false false (bare (Some "paddle.vision.transforms.vflip"));
  R "transformers.AddedToken" (Some "ChangeAPIMatcher") false false (bare (Some "paddleformers.transformers.AddedToken"));
  R "transformers.GenerationConfig" (Some "ChangeAPIMatcher") false false (bare (Some "paddleformers.generation.GenerationConfig"))].

Definition api_mapping_20 : list row := [
  R "transformers.LogitsProcessor" (Some "GenericMatcher") false false (MkEntry ["input_ids"; "scores"] [] 0 [] [("scores", TName "logits")] [] (Some "paddleformers.generation.LogitsProcessor"));
  R "transformers.LogitsProcessorList" (Some "ChangeAPIMatcher") false false (bare (Some "paddleformers.generation.LogitsProcessorList"));
  R "transformers.PreTrainedModel" (Some "TRFMPreTrainedModelMatcher") false true (bare (Some "paddleformers.transformers.PretrainedModel"));
  R "transformers.PreTrainedModel.generate" (Some "GenericMatcher") false false (MkEntry ["input"] [] 1 [] [("input", TName "input_ids")] [] (Some "paddleformers.transformers.PretrainedModel.generate"));
  R "transformers.PreTrainedTokenizer" (Some "ChangePrefixMatcher") false false (bare None);
  R "transformers.PretrainedConfig" (Some "ChangeAPIMatcher") false true (bare (Some "paddleformers.transformers.PretrainedConfig"));
  R "transformers.StoppingCriteriaList" (Some "ChangeAPIMatcher") false false (bare (Some "paddleformers.generation.StoppingCriteriaList"));
  R "transformers.generation.utils.GenerateOutput" (Some "ChangeAPIMatcher") false true (bare (Some "paddleformers.transformers.model_outputs.BaseModelOutput"));
  R "transformers.logging.get_logger" (Some "GetLoggerMatcher") false false (MkEntry ["name"] [] 0 [] [] [] None);
  R "transformers.modeling_outputs.BaseModelOutputWithPast" (Some "ChangeAPIMatcher") false false (MkEntry ["last_hidden_state"; "past_key_values"; "hidden_states"; "attentions"] [] 0 [] [] [] (Some "paddleformers.transformers.model_outputs.BaseModelOutputWithPast"));
  R "transformers.modeling_outputs.CausalLMOutputWithPast" (Some "ChangeAPIMatcher") false false (MkEntry ["loss"; "logits"; "past_key_values"; "hidden_states"; "attentions"] [] 0 [] [] [] (Some "paddleformers.transformers.model_outputs.CausalLMOutputWithPast"));
  R "transformers.utils.add_start_docstrings_to_model_forward" (Some "ChangeAPIMatcher") false false (MkEntry ["*docstr"] [] 0 [] [] [] (Some "paddleformers.trainer.utils.add_start_docstrings_to_model_forward"))].

Definition api_mapping : list row := (api_mapping_0 ++ api_mapping_1 ++ api_mapping_2 ++ api_mapping_3 ++ api_mapping_4 ++ api_mapping_5 ++ api_mapping_6 ++ api_mapping_7 ++ api_mapping_8 ++ api_mapping_9 ++ api_mapping_10 ++ api_mapping_11 ++ api_mapping_12 ++ api_mapping_13 ++ api_mapping_14 ++ api_mapping_15 ++ api_mapping_16 ++ api_mapping_17 ++ api_mapping_18 ++ api_mapping_19 ++ api_mapping_20)%list.

Definition attribute_mapping_0 : list row := [
  R "torch.Tensor.H" (Some "ChangePrefixMatcher") false false (bare None);
  R "torch.Tensor.T" (Some "ChangePrefixMatcher") false false (bare None);
  R "torch.Tensor.data" (Some "ChangePrefixMatcher") false false (bare None);
  R "torch.Tensor.device" (Some "ChangePrefixMatcher") false false (bare None);
  R "torch.Tensor.dtype" (Some "ChangePrefixMatcher") false false (bare None);
  R "torch.Tensor.grad" (Some "ChangePrefixMatcher") false false (bare None);
  R "torch.Tensor.imag" (Some "Attribute2Func") false false (bare (Some "paddle.Tensor.imag"));
  R "torch.Tensor.is_cpu" (Some "ChangePrefixMatcher") false false (bare None);
  R "torch.Tensor.is_cuda" (Some "ChangePrefixMatcher") false false (bare None);
  R "torch.Tensor.is_leaf" (Some "ChangePrefixMatcher") false false (bare None);
  R "torch.Tensor.is_meta" None false false (bare None);
  R "torch.Tensor.is_quantized" None false false (bare None);
  R "torch.Tensor.is_sparse" (Some "Attribute2Func") false false (bare (Some "paddle.Tensor.is_sparse"));
  R "torch.Tensor.is_sparse_csr" (Some "Attribute2Func") false false (bare (Some "paddle.Tensor.is_sparse_csr"));
  R "torch.Tensor.itemsize" (Some "ChangePrefixMatcher") false false (bare None);
  R "torch.Tensor.mH" (Some "ChangePrefixMatcher") false false (bare None);
  R "torch.Tensor.mT" (Some "ChangePrefixMatcher") false false (bare None);
  R "torch.Tensor.names" None false false (bare None);
  R "torch.Tensor.nbytes" (Some "ChangePrefixMatcher") false false (bare None);
  R "torch.Tensor.ndim" (Some "ChangePrefixMatcher") false false (bare None);
  R "torch.Tensor.real" (Some "Attribute2Func") false false (bare (Some "paddle.Tensor.real"));
  R "torch.Tensor.requires_grad" (Some "ChangePrefixMatcher") false false (bare None);
  R "torch.Tensor.retains_grad" None false false (bare None);
  R "torch.Tensor.shape" (Some "ChangePrefixMatcher") false false (bare None);
  R "torch.__version__" (Some "ChangePrefixMatcher") false false (bare None);
  R "torch.autograd.Function.saved_tensors" (Some "ChangePrefixMatcher") false false (bare None);
  R "torch.autograd.profiler.profile.self_cpu_time_total" None false false (bare None);
  R "torch.backends.cuda.matmul.allow_tf32" (Some "PaddleFlagMatcher") false false (bare (Some "PaddleFlag.matmul_allow_tf32"));
  R "torch.backends.cudnn.allow_tf32" (Some "PaddleFlagMatcher") false false (bare (Some "PaddleFlag.cudnn_allow_tf32"));
  R "torch.backends.cudnn.benchmark" (Some "PaddleFlagMatcher") false false (bare (Some "PaddleFlag.cudnn_benchmark"));
  R "torch.backends.cudnn.deterministic" (Some "PaddleFlagMatcher") false false (bare (Some "PaddleFlag.cudnn_deterministic"));
  R "torch.backends.cudnn.enabled" (Some "PaddleFlagMatcher") false false (bare (Some "PaddleFlag.cudnn_enabled"));
  R "torch.bfloat16" (Some "ChangePrefixMatcher") false false (bare None);
  R "torch.bfloat16.itemsize" (Some "ChangePrefixMatcher") false false (bare None);
  R "torch.bool" (Some "ChangePrefixMatcher") false false (bare None);
  R "torch.bool.itemsize" (Some "ChangePrefixMatcher") false false (bare None);
  R "torch.cdouble" (Some "ChangePrefixMatcher") false false (bare None);
  R "torch.cfloat" (Some "ChangePrefixMatcher") false false (bare None);
  R "torch.cfloat.itemsize" (Some "ChangePrefixMatcher") false false (bare None);
  R "torch.complex128" (Some "ChangePrefixMatcher") false false (bare None);
  R "torch.complex128.itemsize" (Some "ChangePrefixMatcher") false false (bare None);
  R "torch.complex64" (Some "ChangePrefixMatcher") false false (bare None);
  R "torch.complex64.itemsize" (Some "ChangePrefixMatcher") false false (bare None);
  R "torch.distributed.ReduceOp.MAX" (Some "ChangePrefixMatcher") false false (bare None);
  R "torch.distributed.ReduceOp.MIN" (Some "ChangePrefixMatcher") false false (bare None);
  R "torch.distributed.ReduceOp.PRODUCT" (Some "ChangeAPIMatcher") false false (bare (Some "paddle.distributed.ReduceOp.PROD"));
  R "torch.distributed.ReduceOp.SUM" (Some "ChangePrefixMatcher") false false (bare None);
  R "torch.distributed.group.WORLD" (Some "ChangePrefixMatcher") false false (bare None);
  R "torch.distributions.Distribution.batch_shape" None false false (bare None);
  R "torch.distributions.Distribution.event_shape" None false false (bare None);
  R "torch.distributions.Distribution.mean" None false false (bare None);
  R "torch.distributions.Distribution.mode" None false false (bare None);
  R "torch.distributions.Distribution.stddev" None false false (bare None);
  R "torch.distributions.Distribution.variance" None false false (bare None);
  R "torch.double" (Some "ChangePrefixMatcher") false false (bare None);
  R "torch.double.itemsize" (Some "ChangePrefixMatcher") false false (bare None);
  R "torch.dtype" (Some "ChangePrefixMatcher") false false (bare None);
  R "torch.e" (Some "ChangePrefixMatcher") false false (bare None);
  R "torch.float" (Some "ChangePrefixMatcher") false false (bare None);
  R "torch.float16" (Some "ChangePrefixMatcher") false false (bare None);
  R "torch.float16.itemsize" (Some "ChangePrefixMatcher") false false (bare None);
  R "torch.float32" (Some "ChangePrefixMatcher") false false (bare None);
  R "torch.float32.itemsize" (Some "ChangePrefixMatcher") false false (bare None);
  R "torch.float64" (Some "ChangePrefixMatcher") false false (bare None);
  R "torch.float64.itemsize" (Some "ChangePrefixMatcher") false false (bare None);
  R "torch.float8_e4m3fn" (Some "ChangePrefixMatcher") false false (bare None);
  R "torch.float8_e4m3fn.itemsize" (Some "ChangePrefixMatcher") false false (bare None);
  R "torch.float8_e5m2" (Some "ChangePrefixMatcher") false false (bare None);
  R "torch.half" (Some "ChangePrefixMatcher") false false (bare None);
  R "torch.inf" (Some "ChangePrefixMatcher") false false (bare None);
  R "torch.int" (Some "ChangePrefixMatcher") false false (bare None);
  R "torch.int16" (Some "ChangePrefixMatcher") false false (bare None);
  R "torch.int16.itemsize" (Some "ChangePrefixMatcher") false false (bare None);
  R "torch.int32" (Some "ChangePrefixMatcher") false false (bare None);
  R "torch.int32.itemsize" (Some "ChangePrefixMatcher") false false (bare None);
  R "torch.int64" (Some "ChangePrefixMatcher") false false (bare None);
  R "torch.int64.itemsize" (Some "ChangePrefixMatcher") false false (bare None);
  R "torch.int8" (Some "ChangePrefixMatcher") false false (bare None);
  R "torch.int8.itemsize" (Some "ChangePrefixMatcher") false false (bare None);
  R "torch.long" (Some "ChangePrefixMatcher") false false (bare None);
  R "torch.long.itemsize" (Some "ChangePrefixMatcher") false false (bare None);
  R "torch.nan" (Some "ChangePrefixMatcher") false false (bare None);
  R "torch.newaxis" (Some "ChangePrefixMatcher") false false (bare None);
  R "torch.pi" (Some "ChangePrefixMatcher") false false (bare None);
  R "torch.short" (Some "ChangePrefixMatcher") false false (bare None);
  R "torch.uint16" (Some "ChangePrefixMatcher") false false (bare None);
  R "torch.uint32" (Some "ChangePrefixMatcher") false false (bare None);
  R "torch.uint64" (Some "ChangePrefixMatcher") false false (bare None);
  R "torch.uint8" (Some "ChangePrefixMatcher") false false (bare None);
  R "torch.uint8.itemsize" (Some "ChangePrefixMatcher") false false (bare None);
  R "torch.utils.cpp_extension.BuildExtension.with_options" (Some "ChangePrefixMatcher") false false (bare None);
  R "torch.utils.cpp_extension.CUDA_HOME" (Some "ChangePrefixMatcher") false false (bare None);
  R "torch.utils.data._utils.collate.default_collate_err_msg_format" (Some "GenericMatcher") false false (bare (Some "'default_collate: batch must contain tensors, numpy arrays, numbers, dicts or lists; found {}'"));
  R "torch.utils.data._utils.collate.np_str_obj_array_pattern" (Some "GenericMatcher") false false (bare (Some "re.compile(r'[SaUO]')"))].

Definition attribute_mapping : list row := (attribute_mapping_0)%list.

Definition wildcard_mapping_0 : list row := [
  R "einops.layers.torch.*" (Some "EinopsTorchMatcher") false false (bare None);
  R "transformers.*" (Some "TransformersGenericMatcher") true false (bare None)].

Definition wildcard_mapping : list row := (wildcard_mapping_0)%list.

Definition alias_mapping : dict string string := [
  ("flash_attn.flash_attn_interface.flash_attn_varlen_func", "flash_attn.flash_attn_interface.flash_attn_unpadded_func");
  ("timm.models.layers.trunc_normal_", "torch.nn.init.trunc_normal_");
  ("torch.Tensor.arccos", "torch.Tensor.acos");
  ("torch.Tensor.arccos_", "torch.Tensor.acos_");
  ("torch.Tensor.arccosh", "torch.Tensor.acosh");
  ("torch.Tensor.arccosh_", "torch.Tensor.acosh_");
  ("torch.Tensor.arcsin", "torch.Tensor.asin");
  ("torch.Tensor.arcsin_", "torch.Tensor.asin_");
  ("torch.Tensor.arcsinh", "torch.Tensor.asinh");
  ("torch.Tensor.arcsinh_", "torch.Tensor.asinh_");
  ("torch.Tensor.arctan", "torch.Tensor.atan");
  ("torch.Tensor.arctan2", "torch.Tensor.atan2");
  ("torch.Tensor.arctan2_", "torch.Tensor.atan2_");
  ("torch.Tensor.arctan_", "torch.Tensor.atan_");
  ("torch.Tensor.arctanh", "torch.Tensor.atanh");
  ("torch.Tensor.arctanh_", "torch.Tensor.atanh_");
  ("torch.Tensor.greater_", "torch.Tensor.gt_");
  ("torch.Tensor.greater_equal_", "torch.Tensor.ge_");
  ("torch.Tensor.less_", "torch.Tensor.lt_");
  ("torch.Tensor.less_equal_", "torch.Tensor.le_");
  ("torch.Tensor.not_equal_", "torch.Tensor.ne_");
  ("torch.amp.autocast_mode.autocast", "torch.amp.autocast");
  ("torch.arccos", "torch.acos");
  ("torch.arccosh", "torch.acosh");
  ("torch.arcsin", "torch.asin");
  ("torch.arcsinh", "torch.asinh");
  ("torch.arctan", "torch.atan");
  ("torch.arctan2", "torch.atan2");
  ("torch.arctanh", "torch.atanh");
  ("torch.autograd.function.Function", "torch.autograd.Function");
  ("torch.avg_pool1d", "torch.nn.functional.avg_pool1d");
  ("torch.bilinear", "torch.nn.functional.bilinear");
  ("torch.celu_", "torch.nn.functional.celu_");
  ("torch.channel_shuffle", "torch.nn.functional.channel_shuffle");
  ("torch.conv_tbc", "torch.nn.functional.conv_tbc");
  ("torch.conv_transpose1d", "torch.nn.functional.conv_transpose1d");
  ("torch.conv_transpose2d", "torch.nn.functional.conv_transpose2d");
  ("torch.conv_transpose3d", "torch.nn.functional.conv_transpose3d");
  ("torch.cosine_similarity", "torch.nn.functional.cosine_similarity");
  ("torch.digamma", "torch.special.digamma");
  ("torch.distributions.AbsTransform", "torch.distributions.transforms.AbsTransform");
  ("torch.distributions.AffineTransform", "torch.distributions.transforms.AffineTransform");
  ("torch.distributions.Bernoulli", "torch.distributions.bernoulli.Bernoulli");
  ("torch.distributions.Binomial", "torch.distributions.binomial.Binomial");
  ("torch.distributions.CatTransform", "torch.distributions.transforms.CatTransform");
  ("torch.distributions.Cauchy", "torch.distributions.cauchy.Cauchy");
  ("torch.distributions.ComposeTransform", "torch.distributions.transforms.ComposeTransform");
  ("torch.distributions.ContinuousBernoulli", "torch.distributions.continuous_bernoulli.ContinuousBernoulli");
  ("torch.distributions.CumulativeDistributionTransform", "torch.distributions.transforms.CumulativeDistributionTransform");
  ("torch.distributions.Dirichlet", "torch.distributions.dirichlet.Dirichlet");
  ("torch.distributions.ExpTransform", "torch.distributions.transforms.ExpTransform");
  ("torch.distributions.Exponential", "torch.distributions.exponential.Exponential");
  ("torch.distributions.Geometric", "torch.distributions.geometric.Geometric");
  ("torch.distributions.Gumbel", "torch.distributions.gumbel.Gumbel");
  ("torch.distributions.Independent", "torch.distributions.independent.Independent");
  ("torch.distributions.IndependentTransform", "torch.distributions.transforms.IndependentTransform");
  ("torch.distributions.Laplace", "torch.distributions.laplace.Laplace");
  ("torch.distributions.LogNormal", "torch.distributions.log_normal.LogNormal");
  ("torch.distributions.Multinomial", "torch.distributions.multinomial.Multinomial");
  ("torch.distributions.OneHotCategorical", "torch.distributions.one_hot_categorical.OneHotCategorical");
  ("torch.distributions.PowerTransform", "torch.distributions.transforms.PowerTransform");
  ("torch.distributions.ReshapeTransform", "torch.distributions.transforms.ReshapeTransform");
  ("torch.distributions.SigmoidTransform", "torch.distributions.transforms.SigmoidTransform");
  ("torch.distributions.SoftmaxTransform", "torch.distributions.transforms.SoftmaxTransform");
  ("torch.distributions.SoftplusTransform", "torch.distributions.transforms.SoftplusTransform");
  ("torch.distributions.StackTransform", "torch.distributions.transforms.StackTransform");
  ("torch.distributions.StickBreakingTransform", "torch.distributions.transforms.StickBreakingTransform");
  ("torch.distributions.TanhTransform", "torch.distributions.transforms.TanhTransform");
  ("torch.distributions.Transform", "torch.distributions.transforms.Transform");
  ("torch.distributions.TransformedDistribution", "torch.distributions.transformed_distribution.TransformedDistribution");
  ("torch.distributions.Uniform", "torch.distributions.uniform.Uniform");
  ("torch.erfc", "torch.special.erfc");
  ("torch.erfinv", "torch.special.erfinv");
  ("torch.exp2", "torch.special.exp2");
  ("torch.functional.block_diag", "torch.block_diag");
  ("torch.functional.broadcast_tensors", "torch.broadcast_tensors");
  ("torch.functional.cartesian_prod", "torch.cartesian_prod");
  ("torch.functional.cdist", "torch.cdist");
  ("torch.functional.istft", "torch.istft");
  ("torch.functional.lu", "torch.lu");
  ("torch.functional.stft", "torch.stft");
  ("torch.functional.tensordot", "torch.tensordot");
  ("torch.functional.unique", "torch.unique");
  ("torch.hardshrink", "torch.nn.functional.hardshrink");
  ("torch.igamma", "torch.special.gammainc");
  ("torch.igammac", "torch.special.gammaincc");
  ("torch.matrix_exp", "torch.linalg.matrix_exp");
  ("torch.matrix_power", "torch.linalg.matrix_power");
  ("torch.nn.NLLLoss2d", "torch.nn.NLLLoss");
  ("torch.nn.UninitializedParameter", "torch.nn.parameter.UninitializedParameter");
  ("torch.nn.modules.AvgPool1d", "torch.nn.AvgPool1d");
  ("torch.nn.modules.AvgPool2d", "torch.nn.AvgPool2d");
  ("torch.nn.modules.AvgPool3d", "torch.nn.AvgPool3d");
  ("torch.nn.modules.BatchNorm1d", "torch.nn.BatchNorm1d");
  ("torch.nn.modules.BatchNorm2d", "torch.nn.BatchNorm2d");
  ("torch.nn.modules.BatchNorm3d", "torch.nn.BatchNorm3d");
  ("torch.nn.modules.CosineSimilarity", "torch.nn.CosineSimilarity");
  ("torch.nn.modules.Dropout", "torch.nn.Dropout");
  ("torch.nn.modules.GroupNorm", "torch.nn.GroupNorm");
  ("torch.nn.modules.LSTM", "torch.nn.LSTM");
  ("torch.nn.modules.Linear", "torch.nn.Linear");
  ("torch.nn.modules.RNN", "torch.nn.RNN");
  ("torch.nn.modules.RNNBase", "torch.nn.RNNBase");
  ("torch.nn.modules.RNNCell", "torch.nn.RNNCell");
  ("torch.nn.modules.RNNCellBase", "torch.nn.RNNCellBase");
  ("torch.nn.modules.SyncBatchNorm", "torch.nn.SyncBatchNorm");
  ("torch.nn.modules.activation.ReLU", "torch.nn.ReLU");
  ("torch.nn.modules.batchnorm.BatchNorm1d", "torch.nn.BatchNorm1d");
  ("torch.nn.modules.batchnorm.BatchNorm2d", "torch.nn.BatchNorm2d");
  ("torch.nn.modules.batchnorm.BatchNorm3d", "torch.nn.BatchNorm3d");
  ("torch.nn.modules.batchnorm.SyncBatchNorm", "torch.nn.SyncBatchNorm");
  ("torch.nn.modules.conv.Conv2d", "torch.nn.Conv2d");
  ("torch.nn.modules.distance.CosineSimilarity", "torch.nn.CosineSimilarity");
  ("torch.nn.modules.linear.Linear", "torch.nn.Linear");
  ("torch.nn.modules.pooling.AvgPool1d", "torch.nn.AvgPool1d");
  ("torch.nn.modules.pooling.AvgPool2d", "torch.nn.AvgPool2d");
  ("torch.nn.modules.pooling.AvgPool3d", "torch.nn.AvgPool3d");
  ("torch.nn.modules.rnn.LSTM", "torch.nn.LSTM");
  ("torch.nn.modules.rnn.RNN", "torch.nn.RNN");
  ("torch.nn.modules.rnn.RNNBase", "torch.nn.RNNBase");
  ("torch.nn.modules.rnn.RNNCell", "torch.nn.RNNCell");
  ("torch.nn.modules.rnn.RNNCellBase", "torch.nn.RNNCellBase");
  ("torch.nn.modules.sparse.Embedding", "torch.nn.Embedding");
  ("torch.nn.parallel.DataParallel", "torch.nn.DataParallel");
  ("torch.nn.parallel.distributed.DistributedDataParallel", "torch.nn.parallel.DistributedDataParallel");
  ("torch.nn.utils.clip_grad_norm", "torch.nn.utils.clip_grad_norm_");
  ("torch.orgqr", "torch.linalg.householder_product");
  ("torch.pairwise_distance", "torch.nn.functional.pairwise_distance");
  ("torch.pdist", "torch.nn.functional.pdist");
  ("torch.pixel_shuffle", "torch.nn.functional.pixel_shuffle");
  ("torch.pixel_unshuffle", "torch.nn.functional.pixel_unshuffle");
  ("torch.polygamma", "torch.special.polygamma");
  ("torch.prelu", "torch.nn.functional.prelu");
  ("torch.random.manual_seed", "torch.manual_seed");
  ("torch.random.seed", "torch.seed");
  ("torch.relu_", "torch.nn.functional.relu_");
  ("torch.rrelu_", "torch.nn.functional.rrelu_");
  ("torch.selu_", "torch.nn.functional.selu_");
  ("torch.threshold", "torch.nn.functional.threshold");
  ("torch.threshold_", "torch.nn.functional.threshold_");
  ("torch.torch.Tensor", "torch.Tensor");
  ("torch.torch.finfo", "torch.finfo");
  ("torch.torch.tril", "torch.tril");
  ("torch.trapz", "torch.trapezoid");
  ("torch.utils.data.dataloader.DataLoader", "torch.utils.data.DataLoader");
  ("torch.utils.data.sampler.SubsetRandomSampler", "torch.utils.data.SubsetRandomSampler");
  ("torch.utils.data.sampler.WeightedRandomSampler", "torch.utils.data.WeightedRandomSampler");
  ("torch.utils.model_zoo.load_url", "torch.hub.load_state_dict_from_url");
  ("torch.xlogy", "torch.special.xlogy");
  ("torchvision.models.inception.Inception3", "torchvision.models.Inception3");
  ("transformers.configuration_utils.PretrainedConfig", "transformers.PretrainedConfig");
  ("transformers.generation.GenerationConfig", "transformers.GenerationConfig");
  ("transformers.generation.LogitsProcessor", "transformers.LogitsProcessor");
  ("transformers.generation.LogitsProcessorList", "transformers.LogitsProcessorList");
  ("transformers.generation.StoppingCriteriaList", "transformers.StoppingCriteriaList");
  ("transformers.generation.configuration_utils.GenerationConfig", "transformers.GenerationConfig");
  ("transformers.generation.logits_process.LogitsProcessor", "transformers.LogitsProcessor");
  ("transformers.generation.logits_process.LogitsProcessorList", "transformers.LogitsProcessorList");
  ("transformers.generation.stopping_criteria.StoppingCriteriaList", "transformers.StoppingCriteriaList");
  ("transformers.modeling_utils.PreTrainedModel", "transformers.PreTrainedModel");
  ("transformers.tokenization_utils.AddedToken", "transformers.AddedToken");
  ("transformers.tokenization_utils.PreTrainedTokenizer", "transformers.PreTrainedTokenizer");
  ("transformers.tokenization_utils_base.AddedToken", "transformers.AddedToken");
  ("transformers.utils.logging.get_logger", "transformers.logging.get_logger")].

Definition import_package_mapping : dict string string := [("audiotools", "paddlespeech.audiotools")].

Definition torch_package_mapping : dict string string := [("torch", "paddle"); ("mmseg", "paddle"); ("mmcv", "paddle"); ("mmdet", "paddle"); ("mmdet3d", "paddle"); ("mmengine", "paddle"); ("detectron", "paddle"); ("timm", "paddle"); ("torchvision", "paddle"); ("torchaudio", "paddlespeech"); ("kornia", "paddle"); ("fasttext", "paddle"); ("pytorch_lightning", "paddle"); ("lightning", "paddle"); ("jieba", "paddle"); ("NLTK", "paddle"); ("scikit-learn", "paddle"); ("fairscale", "paddle"); ("transformers", "paddleformers"); ("datasets", "paddle"); ("accelerate", "paddle"); ("diffusers", "paddle"); ("torch_xla", "paddle"); ("flash_attn", "paddle")].

Definition may_torch_package_list : list string := ["setuptools"; "os"; "einops"].

(** Matcher classes defined in api_matcher.py, sorted, with [BaseMatcher] (base.py:326). *)
Definition matcher_classes : list string := ["ADVariableMatcher"; "AMinMaxMatcher"; "AddBmmMatcher"; "AddBmm_Matcher"; "AddCDivMatcher"; "AddCDiv_Matcher"; "AddCMulMatcher"; "AddCMul_Matcher"; "AddMRMatcher"; "AddMR_Matcher"; "AdjointMatcher"; "AllGatherIntoTensorMatcher"; "AllcloseMatcher"; "ArangeMatcher"; "AssertMatcher"; "Assert_AllcloseMatcher"; "Attribute2Func"; "AvgPoolMatcher"; "BaseMatcher"; "BoxesConvertMatcher"; "BroadcastShapesMatcher"; "CUDAAndCppExtensionMatcher"; "CanCastMatcher"; "Chain_MatmulMatcher"; "ChangeAPIMatcher"; "ChangePrefixMatcher"; "CheckPointMatcher"; "CifarMatcher"; "ConstantLRMatcher"; "CreateMatcher"; "CudaGetRngStateMatcher"; "CudaIsAvailableMatcher"; "CudaNvtxRangePushMatcher"; "CudaSeedMatcher"; "CudaStreamMatcher"; "CudnnIsAvailableMatcher"; "DecodeJpegMatcher"; "DeleteMatcher"; "DetachMatcher"; "Device2IntMatcher"; "Device2StrBaseMatcher"; "Device2StrMatcher"; "DimOrderMatcher"; "DistributedBackendMatcher"; "DivideMatcher"; "DoubleAssignMatcher"; "EinopsTorchMatcher"; "EmbeddingMatcher"; "EqualMatcher"; "ErfCMatcher"; "ErfC_Matcher"; "Exp2Matcher"; "ExpitMatcher"; "FAApplyRotaryEmbFuncMatcher"; "FAFlashAttnFuncMatcher"; "FAFlashAttnUnpaddedFuncMatcher"; "FARmsNorm"; "FSInitializeModelParallelMatcher"; "FSModelParallelIsInitializedMatcher"; "FSParallelEmbeddingMatcher"; "FSoftMinMatcher"; "FSoftmaxMatcher"; "FloatPowerInplaceMatcher"; "FloatPowerMatcher"; "Flowers102Matcher"; "ForeachErfcMatcher"; "ForeachErfc_Matcher"; "ForeachMatcher"; "ForeachTensorMatcher"; "Fractional_Max_pool2dMatcher"; "Fractional_Max_pool3dMatcher"; "FromBufferMatcher"; "Func2Attribute"; "FunctionalBilinearMatcher"; "FunctionalLinearMatcher"; "FunctionalOneHotMatcher"; "GRUCellMatcher"; "GeluMatcher"; "GeneratorMatcher"; "GenericMatcher"; "GetLoggerMatcher"; "GetNumInteropThreadsMatcher"; "GetNumThreadsMatcher"; "Get_EnumMatcher"; "HistcMatcher"; "HistogramMatcher"; "HubLoadMatcher"; "IndexAddMatcher"; "IndexCopyMatcher"; "InferenceModeMatcher"; "InitEyeMatcher"; "InitMatcher"; "IsNonzeroMatcher"; "Is_InferenceMatcher"; "Is_PinnedMatcher"; "JitSaveMatcher"; "LRSchedulerMatcher"; "LSTMCellMatcher"; "LinalgCholeskyExMatcher"; "LinalgInvExMatcher"; "LinalgLuMatcher"; "LinalgLuSolveMatcher"; "LinalgSolveTriangularMatcher"; "Linalg_qrMatcher"; "LoadMatcher"; "LogAddExp2Matcher"; "LogDetMatcher"; "LogSoftmaxMatcher"; "LuMatcher"; "Lu_unpackMatcher"; "MNISTMatcher"; "MPCpuCountMatcher"; "MSortMatcher"; "MakeTMatcher"; "MaxMatcher"; "MeshgridMatcher"; "MinMatcher"; "ModuleGetSubMatcher"; "ModuleToMatcher"; "NTupleMatcher"; "NarrowCopyMatcher"; "NarrowMatcher"; "NonzeroMatcher"; "NormMatcher"; "Num2TensorBinaryConvertTypeMatcher"; "Num2TensorBinaryMatcher"; "Num2TensorBinaryWithAlphaMatcher"; "NumelMatcher"; "OneCycleLRMatcher"; "OnnxExportMatcher"; "Optim2LrSchedulerMatcher"; "OptimAdamMatcher"; "OptimOptimizerMatcher"; "OsEnvironGetMatcher"; "PadMatcher"; "PaddleFlagMatcher"; "PolarMatcher"; "QrMatcher"; "RNNBaseMatcher"; "RNNCellMatcher"; "RNNMatcher"; "RandLikeMatcher"; "RandintLikeMatcher"; "RandintMatcher"; "RangeMatcher"; "ReduceScatterTensorMatcher"; "RequireDimMatcher"; "ReverseAsyncOpMatcher"; "ReverseMomentumMatcher"; "RoundMatcher"; "RpcRemoteMatcher"; "SDPAttnMatcher"; "SLogDetMatcher"; "ScalableVarMatcher"; "ScatterReduceMatcher"; "SearchsortedMatcher"; "SeedMatcher"; "SelectMatcher"; "SequentialMatcher"; "SetDefaultTensorTypeMatcher"; "SetFalseMatcher"; "SetNumInteropThreadsMatcher"; "SetNumThreadsMatcher"; "SetPerProcessMemoryFractionMatcher"; "SetPrintOptionsMatcher"; "SetTrueMatcher"; "SetUpMatcher"; "SignalWindowsWatcher"; "SimpleScalableVarMatcher"; "SizeAverageMatcher"; "SizeMatcher"; "SliceScatterMatcher"; "SoftmaxMatcher"; "SoftminMatcher"; "SortMatcher"; "SparseSoftmaxMatcher"; "SpecialErfcxMatcher"; "SpecialNdtrMatcher"; "SpecialNdtriMatcher"; "SpecialXLog1pYMatcher"; "SplitMatcher"; "StdMeanMatcher"; "StftMatcher"; "SvdMatcher"; "SymeigMatcher"; "TRFMPreTrainedModelMatcher"; "TensorAddMatcher"; "TensorBF16Matcher"; "TensorBoolMatcher"; "TensorByteMatcher"; "TensorCdoubleMatcher"; "TensorCfloatMatcher"; "TensorCharMatcher"; "TensorCopy_Matcher"; "TensorDatasetMatcher"; "TensorDivideMatcher"; "TensorDivideWithRoundingModeMatcher"; "TensorDoubleMatcher"; "TensorExpandMatcher"; "TensorFP16Matcher"; "TensorFloatMatcher"; "TensorFunc2PaddleFunc"; "TensorHMatcher"; "TensorIndexCopyMatcher"; "TensorInplaceReserveTypeMatcher"; "TensorIntMatcher"; "TensorIsCudaMatcher"; "TensorIsSignedMatcher"; "TensorLongMatcher"; "TensorMaskedFillMatcher"; "TensorMatcher"; "TensorMaxMatcher"; "TensorMhMatcher"; "TensorMinMatcher"; "TensorMtMatcher"; "TensorMultiplyMatcher"; "TensorNewFullMatcher"; "TensorNewTensorMatcher"; "TensorNew_Matcher"; "TensorRenameMatcher"; "TensorRequiresGradMatcher"; "TensorRequiresGrad_Matcher"; "TensorReshapeMatcher"; "TensorReshape_asMatcher"; "TensorResizeMatcher"; "TensorResize_as_Matcher"; "TensorRoundMatcher"; "TensorRound_Matcher"; "TensorSetMatcher"; "TensorShapeMatcher"; "TensorShortMatcher"; "TensorSizeMatcher"; "TensorSkipMatcher"; "TensorSplitMatcher"; "TensorStftMatcher"; "TensorStrideMatcher"; "TensorSubtractMatcher"; "TensorTakeMatcher"; "TensorTileMatcher"; "TensorToBoolMatcher"; "TensorToMatcher"; "TensorToSparseCooMatcher"; "TensorTransposeMatcher"; "TensorTriangularSolveMatcher"; "TensorTypeAsMatcher"; "TensorTypeMatcher"; "TensorViewMatcher"; "TensorWhereMatcher"; "TorchDevice2StrMatcher"; "TorchTensorMatcher"; "TransformersGenericMatcher"; "TransformsPositiveDefiniteTransformMatcher"; "TransposeMatcher"; "TriangularSolveMatcher"; "TripleAssignMatcher"; "UtilsSetModuleMatcher"; "VGGMatcher"; "VOCDetectionMatcher"; "VarMeanMatcher"; "WeightsMatcher"; "XLogYMatcher"; "XLogY_Matcher"; "ZeroGradMatcher"; "_MaxMinMatcherBase"].
