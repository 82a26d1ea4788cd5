(** Words for C154: loading a file. *)
From Verif Require Import PyStr PyDict Args FlagSpec DatasetSpec.

(** The arguments of PyTorch that have nothing to do with Paddle's format. *)
Definition load_ignored : list string := ["map_location"; "pickle_module"; "weights_only"].
(** The file is read from the path that is the text of [f]. *)
Definition load_code (f : string) : string := call_of "paddle.load" [("path", "str(" ++ f ++ ")")].
