(** Words for C152: parallel models of fairscale, and the norm of flash_attn. *)
From Coq Require Import ZArith.
From Verif Require Import PyStr PyDict Args FlagSpec DatasetSpec OutSpec.

(** The new code for a model of [size] parts and pipelines of [length]; [m], [d] and [s] are names. *)
Definition fleet_code (m d s size length : string) : string :=
  lines [m ++ " = int(min(paddle.distributed.get_world_size()," ++ size ++ "))";
         d ++ " = int(paddle.distributed.get_world_size()/ (" ++ m ++ " * " ++ length ++ "))";
         s ++ " = paddle.distributed.fleet.DistributedStrategy()";
         s ++ ".hybrid_configs = dict(dp_degree=" ++ d ++ ", mp_degree=" ++ m ++ ", pp_degree=" ++ length ++ ")";
         "paddle.distributed.fleet.init(is_collective=True, strategy=" ++ s ++ ")"].
(** The values of [m] and [d] in it. *)
Definition parts (world size : Z) : Z := Z.min world size.
Definition replicas (world size length : Z) : Z := (world / (parts world size * length))%Z.
(** The code for an embedding; its weights are all zero. *)
Definition embedding_code (count width : string) : string :=
  "paddle.distributed.fleet.meta_parallel.                VocabParallelEmbedding(num_embeddings=" ++ count ++ ",                embedding_dim=" ++ width ++ ",weight_attr=paddle.nn.initializer.Constant(0))".
(** The norm over the last axis of [x], without a bias. *)
Definition norm_code (x weight epsilon : string) : string :=
  lines ["paddle.incubate.nn.functional.fused_rms_norm(" ++ x ++ ", " ++ weight ++ ", paddle.zeros_like(" ++ weight ++ "), " ++ epsilon ++ ",len(" ++ x ++ ".shape)-1)[0]"].
