(** Which of the rules of C86-C94 answers for which call, and what an answer brings about
    (specification). *)
From Verif Require Import PyStr PyDict UtilsFile Args ArgsSpec GenericSpec TablesData Lookup Ast BasicPass Generate Shipped.
From Verif Require Special.

Section OwnRules.
Variable t : tools.
(** [own_rule r recv args kws w x exts]: the rule for calls of the API of row [r], with
    receiver [recv] and these arguments, says [x], and the names of compiled extensions
    are then [exts]. *)
Inductive own_rule (r : row) (args kws : list node) (w : world) : option string -> Special.answer -> list string -> Prop :=
| rule_max v : r_name r = "torch.Tensor.max" ->
    own_rule r args kws w (Some v) (Special.extremum_nodes "max" v (r_entry r) (exprs_of t args) (keywords_of t kws)) (cpp_extensions w)
| rule_min v : r_name r = "torch.Tensor.min" ->
    own_rule r args kws w (Some v) (Special.extremum_nodes "min" v (r_entry r) (exprs_of t args) (keywords_of t kws)) (cpp_extensions w)
| rule_rename v : r_name r = "torch.Tensor.rename" ->
    own_rule r args kws w (Some v) (Special.rename_nodes (r_entry r) (keywords_of t kws)) (cpp_extensions w)
| rule_split v : r_name r = "torch.Tensor.split" ->
    own_rule r args kws w (Some v) (Special.split_nodes (r_entry r) (exprs_of t args) (keywords_of t kws)) (cpp_extensions w)
| rule_stft v : r_name r = "torch.Tensor.stft" -> plain_text v ->
    own_rule r args kws w (Some v) (Special.stft_nodes (r_entry r) (v ++ ".stft") (exprs_of t args) (keywords_of t kws)) (cpp_extensions w)
| rule_chain : r_name r = "torch.chain_matmul" ->
    own_rule r args kws w None (Special.chain_nodes (r_entry r) (exprs_of t args) (keywords_of t kws)) (cpp_extensions w)
| rule_hub : r_name r = "torch.hub.load" ->
    own_rule r args kws w None (Special.hub_load_nodes (r_entry r) "paddle.hub.load" (exprs_of t args) (keywords_of t kws)) (cpp_extensions w)
| rule_pretrained : r_name r = "transformers.PreTrainedModel" ->
    own_rule r args kws w None
      (Special.pretrained_model_nodes (r_entry r) "paddleformers.transformers.PretrainedModel" (exprs_of t args) (keywords_of t kws))
      (cpp_extensions w)
| rule_make constant inner : r_name r = "torch.testing.make_tensor" ->
    (forall x, args = [x] -> constant (expr_of t x) = is_constant x /\
                             (forall v, child_at x (At "value" 0) = Some v -> inner (expr_of t x) = source t v)) ->
    (forall x, args = [x] -> kind_of x = "Starred" -> child_at x (At "value" 0) <> None) ->
    own_rule r args kws w None
      (Special.make_tensor_nodes constant inner (r_entry r) (exprs_of t args) (keywords_of t kws)) (cpp_extensions w)
| rule_setup : r_name r = "setuptools.setup" ->
    own_rule r args kws w None
      (fst (Special.setup_nodes (r_entry r) (exprs_of t args) (keywords_of t kws) (cpp_extensions w)))
      (snd (Special.setup_nodes (r_entry r) (exprs_of t args) (keywords_of t kws) (cpp_extensions w)))
| rule_rotary : r_name r = "flash_attn.layers.rotary.apply_rotary_emb_func" ->
    own_rule r args kws w None (Special.rotary_nodes (r_entry r) (exprs_of t args) (keywords_of t kws)) (cpp_extensions w)
| rule_weights api : r_matcher r = Some "WeightsMatcher" -> paddle_api (r_entry r) = Some api ->
    own_rule r args kws w None
      (Special.weights_nodes (r_entry r) api (snd (unique_name (name_counters w) "out")) (exprs_of t args) (keywords_of t kws))
      (cpp_extensions w)
| rule_extension kind : In kind ["CUDAExtension"; "CppExtension"] -> r_name r = "torch.utils.cpp_extension." ++ kind ->
    own_rule r args kws w None
      (Special.extension_nodes (r_entry r) ("paddle.utils.cpp_extension." ++ kind)
         (snd (unique_name (name_counters w) "out")) (exprs_of t args) (keywords_of t kws))
      (cpp_extensions w).

(** [says r x w a l w']: in state [w], what the rule says becomes the answer [a], the
    statements [l] asked for besides and the state [w']. *)
Definition with_its_helper (r : row) (h : bool) (w : world) (l : list node) (w' : world) : Prop :=
  exists c, r_matcher r = Some c /\
    if h && negb (String.eqb (helper_code t c) "")
    then l = helper_imports t /\ helpers w' = (helpers w ++ [helper_code t c])%list
    else l = [] /\ helpers w' = helpers w.
Inductive says (r : row) (w : world) : Special.answer -> BasicPass.answer -> list node -> world -> Prop :=
| says_code h code ns l w' : parse t code = Ok ns -> with_its_helper r h w l w' -> says r w (Special.Produce h code) (ANodes ns) l w'
| says_unchanged h l w' : with_its_helper r h w l w' -> says r w (Special.Leave h) AUnchange l w'
| says_not_supported w' : helpers w' = helpers w -> says r w Special.NoAnswer ANothing [] w'
| says_other_api w' : helpers w' = helpers w -> says r w Special.NotThisApi AMisidentify [] w'.
End OwnRules.
