(** Words for C150: comparisons in place. *)
From Verif Require Import PyStr PyDict Args FlagSpec DatasetSpec OutSpec.

(** The methods of torch with an operand, those of Paddle, and whether Paddle's need a tensor as operand. *)
Definition comparisons : list (string * (string * bool)) :=
  [("torch.Tensor.eq_", ("equal_", true)); ("torch.Tensor.ne_", ("not_equal_", true));
   ("torch.Tensor.gt_", ("greater_than_", true)); ("torch.Tensor.ge_", ("greater_equal_", true));
   ("torch.Tensor.lt_", ("less_than_", true)); ("torch.Tensor.le_", ("less_equal_", true));
   ("torch.Tensor.logical_and_", ("logical_and_", false)); ("torch.Tensor.logical_or_", ("logical_or_", false));
   ("torch.Tensor.logical_xor_", ("logical_xor_", false))].
Definition operand (tensor : bool) (v : string) : string := if tensor then "paddle.to_tensor(" ++ v ++ ")" else v.
(** The tensor [w] is compared in place by its method [f], and keeps its type. *)
Definition in_place (w f : string) (l : list (string * string)) : string :=
  lines ["_x_dtype_ = " ++ w ++ ".dtype"; call_of (w ++ "." ++ f) l ++ ".cast_(_x_dtype_)"].
