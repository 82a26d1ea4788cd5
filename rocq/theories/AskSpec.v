(** Words for C158: questions about a tensor, and its adjoint. *)
From Coq Require Import PeanoNat.
From Verif Require Import PyStr PyDict Args FlagSpec DatasetSpec OutSpec.

(** Methods without parameters: the new code for the receiver [w]. *)
Definition questions : list (string * (string -> string)) :=
  [("torch.Tensor.is_pinned", fun w => "'pinned' in str(" ++ w ++ ".place)");
   ("torch.Tensor.is_signed", fun w => w ++ ".dtype not in [paddle.uint8]");
   ("torch.Tensor.dim_order", fun w => lines ["tuple([i for i in range(len(" ++ w ++ ".shape))])"])].
(** Functions of one argument. *)
Definition functions_of_one : list (string * (string * (string -> string))) :=
  [("torch.numel", ("input", fun x => x ++ ".size")); ("torch.is_inference", ("input", fun x => x ++ ".stop_gradient"));
   ("torch.detach", ("input", fun x => x ++ ".detach()")); ("torch.distributed.Backend", ("name", fun x => x ++ ".lower()"))].
(** The types a tensor can have in both libraries. *)
Inductive dtype := Bool | Uint8 | Int8 | Int16 | Int32 | Int64 | Float16 | Bfloat16 | Float32 | Float64 | Complex64 | Complex128.
(** In PyTorch, types that can represent negative numbers are signed. *)
Definition signed (d : dtype) : bool := match d with Bool | Uint8 => false | _ => true end.
(** The value of the new code: the type is not in the list [[paddle.uint8]]. *)
Definition not_in_list (d : dtype) : bool := match d with Uint8 => false | _ => true end.
(** The new code for the adjoint of [x]; [p] is a name. *)
Definition adjoint_code (p x : string) : string :=
  lines [p ++ " = list(range(" ++ x ++ ".ndim))"; p ++ "[-1], " ++ p ++ "[-2] = " ++ p ++ "[-2], " ++ p ++ "[-1]"; "paddle.conj(paddle.transpose(" ++ x ++ ", perm=" ++ p ++ "))"].
(** What the assignment in it does to a list. *)
Definition swap_last (l : list nat) : list nat := match rev l with a :: b :: r => rev (b :: a :: r) | _ => l end.
