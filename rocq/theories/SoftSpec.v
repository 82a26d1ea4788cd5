(** Words for C160: softmax of sparse tensors. *)
From Verif Require Import PyStr PyDict Args FlagSpec DatasetSpec OutSpec LrSpec.

Definition soft_names : list (string * string) := [("input", "x"); ("dim", "axis")].
(** Arguments the function does not have. *)
Definition soft_foreign : list string :=
  ["layout"; "device"; "memory_format"; "inplace"; "generator"; "non_blocking"; "async"; "pin_memory"; "requires_grad"; "out"; "x"; "axis"].
(** The line that gives the tensor [x] with elements of type [dtype] the name [name]. *)
Definition cast_line (name x dtype : string) : string := name ++ "=paddle.sparse.cast(" ++ x ++ ", value_dtype=" ++ dtype ++ ")" ++ String nl "".
