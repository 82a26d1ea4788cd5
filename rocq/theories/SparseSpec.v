(** Words for C157: sums of sparse tensors. *)
From Verif Require Import PyStr PyDict Args FlagSpec DatasetSpec OutSpec LrSpec.

Definition sum_names : list (string * string) := [("input", "x"); ("dim", "axis")].
(** Arguments the function does not have. *)
Definition sum_foreign : list string :=
  ["layout"; "device"; "memory_format"; "inplace"; "generator"; "non_blocking"; "async"; "dtype"; "pin_memory"; "requires_grad"; "out"; "x"; "axis"].
