(** Words for C142: optimizers with two decay rates in one tuple. *)
From Verif Require Import PyStr PyDict Args FlagSpec DatasetSpec LrSpec.

(** The optimizers, their Paddle counterparts, and whether Paddle requires weight_decay. *)
Definition adam_family : list (string * string * bool) :=
  [("torch.optim.Adam", "paddle.optimizer.Adam", true); ("torch.optim.NAdam", "paddle.optimizer.NAdam", true);
   ("torch.optim.RAdam", "paddle.optimizer.RAdam", true); ("torch.optim.Adamax", "paddle.optimizer.Adamax", false)].
(** Paddle's names for parameters. *)
Definition paddle_names : list (string * string) := [("params", "parameters"); ("lr", "learning_rate"); ("eps", "epsilon")].
(** Names that have a meaning of their own for every API, and Paddle's names: no parameters of
    these optimizers in PyTorch. *)
Definition foreign : list string :=
  ["parameters"; "learning_rate"; "epsilon"; "dtype"; "pin_memory"; "requires_grad"; "out";
   "layout"; "device"; "memory_format"; "inplace"; "generator"; "non_blocking"; "async"].
(** [new] has both elements of [betas], if it is given. *)
Definition betas_split (t : table) (dropped : list string) (new : list (string * string)) : Prop :=
  (exists b, passes t "betas" b /\ dropped = ["betas"] /\ new = [("beta1", b ++ "[0]"); ("beta2", b ++ "[1]")]) \/
  ((forall b, ~ passes t "betas" b) /\ dropped = [] /\ new = []).
