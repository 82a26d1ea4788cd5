(** Words for C148: pooling with random regions. *)
From Verif Require Import PyStr PyDict Args FlagSpec DatasetSpec OutSpec.

(** The names of the parameters in Paddle. *)
Definition pool_names : list (string * string) := [("input", "x"); ("return_indices", "return_mask")].
(** Paddle's names and names with a meaning for every API: no parameters of these functions. *)
Definition pool_foreign : list string :=
  ["x"; "return_mask"; "dtype"; "pin_memory"; "requires_grad"; "out"; "layout"; "device"; "memory_format"; "inplace"; "generator"; "non_blocking"; "async"].
(** The sizes of the output that are the parts [r] of the last sizes of [x]. *)
Definition sizes_2d (x r : string) : string :=
  "[int(paddle.shape(" ++ x ++ ")[-2] * " ++ r ++ "[0]),int(paddle.shape(" ++ x ++ ")[-1] * " ++ r ++ "[1])]".
Definition sizes_3d (x r : string) : string :=
  "[int(paddle.shape(" ++ x ++ ")[-3] * " ++ r ++ "[0]), int(paddle.shape(" ++ x ++ ")[-2] * " ++ r ++ "[1]),int(paddle.shape(" ++ x ++ ")[-1] * " ++ r ++ "[2])]".
(** The function of torch, that of Paddle, and the sizes. *)
Inductive pool : string -> string -> (string -> string -> string) -> Prop :=
| pool_2d : pool "torch.nn.functional.fractional_max_pool2d" "paddle.nn.functional.fractional_max_pool2d" sizes_2d
| pool_3d : pool "torch.nn.functional.fractional_max_pool3d" "paddle.nn.functional.fractional_max_pool3d" sizes_3d.
