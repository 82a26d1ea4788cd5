(** Words for C151: methods whose form changes. *)
From Verif Require Import PyStr PyDict Args FlagSpec DatasetSpec OutSpec.

(** Methods of tensors that are functions in Paddle: their names and the names of their parameters. *)
Definition functions : list (string * (string * list (string * string))) :=
  [("torch.Tensor.hardshrink", ("paddle.nn.functional.hardshrink", [("lambd", "threshold")]));
   ("torch.Tensor.lu_solve", ("paddle.linalg.lu_solve", [("LU_data", "lu"); ("LU_pivots", "pivots")]));
   ("torch.Tensor.ormqr", ("paddle.linalg.ormqr", [("input2", "tau"); ("input3", "y")]))].
(** A call of [f] with [w] first and the arguments [l] by name. *)
Definition call_on (f w : string) (l : list (string * string)) : string := f ++ "(" ++ w ++ ", " ++ commas l ++ ")".
(** Methods without parameters that are attributes in Paddle. *)
Definition attributes : list (string * string) := [("torch.Tensor.numel", "size"); ("torch.Tensor.is_inference", "stop_gradient")].
