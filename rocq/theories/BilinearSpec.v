(** Words for C156: bilinear forms, remote calls and decoded images. *)
From Verif Require Import PyStr PyDict Args FlagSpec DatasetSpec OutSpec.

Definition bilinear_paddle : string := "paddle.nn.functional.bilinear".
(** The bias with a first axis of length one. *)
Definition raised (bias : string) : string := bias ++ ".unsqueeze(0)".
(** A remote call is an asynchronous one with a wrapper. *)
Definition remote_code (l : list (string * string)) : string := lines ["rpc_remote(" ++ call_of "paddle.distributed.rpc.rpc_async" l ++ ")"].
Definition decode_code (l : list (string * string)) (device : string) : string := lines [call_of "paddle.vision.ops.decode_jpeg" l ++ ".to(" ++ device ++ ")"].
