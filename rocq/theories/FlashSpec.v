(** Words for C147: attention. *)
From Coq Require Import QArith.
From Verif Require Import PyStr PyDict Args FlagSpec DatasetSpec OutSpec.
Open Scope string_scope.

(** The names of the parameters in Paddle. *)
Definition attention_names : list (string * string) :=
  [("q", "query"); ("k", "key"); ("v", "value"); ("dropout_p", "dropout"); ("return_attn_probs", "return_softmax")].
Definition unpadded_names : list (string * string) :=
  [("q", "query"); ("k", "key"); ("v", "value"); ("dropout_p", "dropout"); ("softmax_scale", "scale"); ("return_attn_probs", "return_softmax")].
(** Paddle's names and names with a meaning for every API: no parameters of these functions. *)
Definition attention_foreign : list string :=
  ["query"; "key"; "value"; "dropout"; "scale"; "return_softmax"; "dtype"; "pin_memory"; "requires_grad"; "out";
   "layout"; "device"; "memory_format"; "inplace"; "generator"; "non_blocking"; "async"].
Definition capable : string := "assert paddle.device.cuda.get_device_capability()[0] >= 8, ""Device capabilities should be at least 8""".
(** The factor by which flash_attn scales for heads of size [h], 1 / sqrt(h), and the square root. *)
Definition flash_scale (h : Z) (s : Q) : Prop := (0 < s /\ s * s * inject_Z h == 1)%Q.
Definition square_root (h : Z) (s : Q) : Prop := (0 < s /\ s * s == inject_Z h)%Q.
