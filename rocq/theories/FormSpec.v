(** Words for C155: methods written out as functions of the receiver. *)
From Verif Require Import PyStr PyDict Args FlagSpec DatasetSpec OutSpec.

(** [w] where [condition] holds, else [other]. *)
Definition where_code (w condition other : string) : string := lines ["paddle.where(" ++ condition ++ ", " ++ w ++ ", " ++ other ++ ")"].
(** All axes of [w] are sparse. *)
Definition sparse_code (w : string) : string := lines [w ++ ".to_sparse_coo(len(" ++ w ++ ".shape))"].
(** The power in double precision. *)
Definition power_method (w exponent : string) : string := w ++ ".cast(paddle.float64).pow(cast_exponent(" ++ exponent ++ "))".
Definition power_function (x exponent : string) : string := "paddle.pow(" ++ x ++ ".cast(paddle.float64), cast_exponent(" ++ exponent ++ "))".
