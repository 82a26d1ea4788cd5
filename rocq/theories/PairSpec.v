(** Words for C144: several results of one call. *)
From Verif Require Import PyStr PyDict Args FlagSpec DatasetSpec OutSpec LrSpec.

(** Two results side by side. *)
Definition pair_of (a b : string) : string := lines ["(" ++ a ++ ", " ++ b ++ ")"].
(** A result that a literal False for [flag] asks to leave out is an empty tensor. *)
Definition unless_off (t : table) (flag x r : string) : Prop :=
  (passes t flag "(False)" /\ r = "paddle.paddle.to_tensor([])") \/ (~ passes t flag "(False)" /\ r = x).
