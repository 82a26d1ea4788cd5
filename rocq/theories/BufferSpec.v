(** Words for C153: parts of tensors, buffers and exported models. *)
From Verif Require Import PyStr PyDict Args FlagSpec DatasetSpec OutSpec.

Definition quote : string := String (Ascii.ascii_of_nat 34) "".
(** Entry [index] along [dim] of [x]; that axis is dropped. *)
Definition select_code (x dim index : string) : string :=
  lines ["paddle.index_select(" ++ x ++ ", index=paddle.to_tensor([" ++ index ++ "]), axis=" ++ dim ++ ").squeeze(" ++ dim ++ ")"].
(** The entries of [x] along [dim] from [start], counted from the end if negative; [v] is a name; copied to [out]. *)
Definition narrow_code (v x dim start length out : string) : string :=
  lines [v ++ " = (" ++ x ++ ".shape[" ++ dim ++ "] + " ++ start ++ ") if " ++ start ++ " < 0 else " ++ start;
         "paddle.assign(paddle.slice(" ++ x ++ ", [" ++ dim ++ "], [" ++ v ++ "], [" ++ v ++ " + " ++ length ++ "]), " ++ out ++ ")"].
Definition nonzero_code (x : string) : string := lines [x ++ ".astype(" ++ quote ++ "bool" ++ quote ++ ").item()"].
(** All of [buffer] as numbers of type [dtype]. *)
Definition buffer_code (buffer dtype : string) : string :=
  lines ["import numpy as np";
         "buffer = " ++ buffer;
         "dtype = " ++ dtype;
         "if isinstance(dtype, paddle.base.core.DataType):";
         "    dtype = dtype.name.lower()";
         "paddle.to_tensor(np.frombuffer(np.array(buffer), dtype=dtype))"].
Definition export_code (model file : string) : string := lines ["onnx_export(" ++ model ++ "," ++ file ++ ")"].
