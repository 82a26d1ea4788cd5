(** Model of functions that paconvert writes into paddle_utils.py for the converted project
    to call (the texts returned by [generate_utils_code] in paconvert/api_matcher.py).
    Definitions only.

    They run in the user's program, after the conversion.  What is modelled is their own
    logic; what they call in [paddle] is represented by the arguments handed over. *)
From Verif Require Import PyStr PyDict Ast Generate.
From Coq Require Export QArith Qround Qabs.
Open Scope string_scope.
Open Scope list_scope.
Open Scope nat_scope.

(** ** Python lists *)
(** The position [l[i]] speaks about in a list of length [n]: negative from the end. *)
Definition position (n : nat) (i : Z) : option nat :=
  if ((0 <=? i) && (i <? Z.of_nat n))%Z then Some (Z.to_nat i)
  else if ((- Z.of_nat n <=? i) && (i <? 0))%Z then Some (Z.to_nat (Z.of_nat n + i))
  else None.
Fixpoint put {A} (k : nat) (v : A) (l : list A) : list A :=
  match l, k with
  | [], _ => []
  | _ :: r, O => v :: r
  | a :: r, S k => a :: put k v r
  end.
(** [l[i]] *)
Definition getitem {A} (l : list A) (i : Z) : res A :=
  match position (List.length l) i with
  | Some k => match nth_error l k with Some a => Ok a | None => Raise "IndexError" end
  | None => Raise "IndexError"
  end.
(** [l[i] = v] *)
Definition setitem {A} (l : list A) (i : Z) (v : A) : res (list A) :=
  match position (List.length l) i with
  | Some k => Ok (put k v l)
  | None => Raise "IndexError"
  end.

(** ** Axes *)
(** api_matcher.py:821-824 and 859-862 [dim2perm]: the right-hand side first, then the two
    stores from left to right. *)
Definition dim2perm (ndim : nat) (dim0 dim1 : Z) : res (list nat) :=
  let perm := seq 0 ndim in
  let* a := getitem perm dim1 in
  let* b := getitem perm dim0 in
  let* perm := setitem perm dim0 a in
  setitem perm dim1 b.

(** api_matcher.py:4009-4014, 4035-4040, 4061-4066, 4087-4092 [_get_softmax_dim] and
    3018-3022 [_get_softmin_dim] *)
Definition softmax_dim (axis : Z) : Z :=
  if ((axis =? 0) || (axis =? 1) || (axis =? 3))%Z then 0%Z else 1%Z.

(** ** Devices *)
(** [int(s)] of a string: spaces around, a sign, digits with single underscores between. *)
Definition is_digit (c : ascii) : bool := in_range 48 57 c.
Fixpoint int_digits (after_digit : bool) (acc : Z) (s : string) : option Z :=
  match s with
  | EmptyString => if after_digit then Some acc else None
  | String c r =>
      if is_digit c then int_digits true (acc * 10 + Z.of_nat (nat_of_ascii c - 48))%Z r
      else if Ascii.eqb c "_"%char && after_digit then int_digits false acc r
      else None
  end.
Definition py_int (s : string) : option Z :=
  match py_strip s with
  | String "-" r => option_map Z.opp (int_digits false 0%Z r)
  | String "+" r => int_digits false 0%Z r
  | t => int_digits false 0%Z t
  end.
(** [str(z)] *)
Definition int_to_str (z : Z) : string :=
  if (z <? 0)%Z then ("-" ++ nat_to_str (Z.to_nat (- z)))%string else nat_to_str (Z.to_nat z).

(** What is passed for a device.  [DOther] is any other object (true as a condition). *)
Inductive device :=
| DNone
| DInt (z : Z)
| DStr (s : string)
| DCpuPlace
| DCudaPlace (id : Z)
| DOther.
Definition truthy (d : device) : bool :=
  match d with
  | DNone => false
  | DInt z => negb (z =? 0)%Z
  | DStr s => negb (String.eqb s "")
  | _ => true
  end.
(** api_matcher.py:1047-1064 [device2str]; [index] is an integer or [None]. *)
Definition device2str (type : device) (index : option Z) (dev : device) : device :=
  let type := if truthy dev then dev else type in
  match type with
  | DInt z => DStr ("gpu:" ++ int_to_str z)
  | DStr s =>
      let s := if contains "cuda" s then py_replace s "cuda" "gpu" else s in
      if contains "cpu" s then DStr "cpu"
      else match index with
           | Some i => DStr (s ++ ":" ++ int_to_str i)
           | None => DStr s
           end
  | DCpuPlace | DNone => DStr "cpu"
  | DCudaPlace id => DStr ("gpu:" ++ int_to_str id)
  | DOther => DOther
  end.
(** api_matcher.py:4760-4763 [device2int]; [int] of the remaining objects raises. *)
Definition device2int (d : device) : res Z :=
  match d with
  | DStr s => match py_int (py_replace s "cuda:" "") with
              | Some z => Ok z
              | None => Raise "ValueError"
              end
  | DInt z => Ok z
  | _ => Raise "TypeError"
  end.
(** api_matcher.py:5684-5693 [cuda_get_rng_state]: which element of
    [paddle.get_cuda_rng_state()] is returned; [None] when the function returns [None]. *)
Definition rng_state_index (d : device) : res (option Z) :=
  match d with
  | DInt z => Ok (Some z)
  | DStr s =>
      match split_on ":"%char s with
      | [_; b] => if isdigit (py_strip b)
                  then match py_int (py_strip b) with
                       | Some z => Ok (Some z)
                       | None => Raise "ValueError"
                       end
                  else Ok (Some 0%Z)
      | _ => Ok (Some 0%Z)
      end
  | DCudaPlace id => Ok (Some id)
  | _ => Ok None
  end.

(** ** Maximum and minimum *)
(** A value: whether it is a [paddle.Tensor], what [bool] of it gives, and a name. *)
Record value := MkValue { is_tensor : bool; truth : res bool; what : string }.
Definition keywords := list (string * value).
Record call := MkCall { callee : string; positional : list value; named : keywords }.
(** What the helper does: returns the value of a call, a pair, or the same after
    [paddle.assign] into [out]; or raises. *)
Inductive reply :=
| Value (c : call)
| Pair (c d : call)
| Stored (c : call) (out : value)
| StoredPair (c d : call) (out : value)
| Failed (exception : string).
(** [d[new] = d.pop(old)] if present *)
Definition rename (old new : string) (d : keywords) : keywords :=
  match dget String.eqb old d with
  | Some v => dset String.eqb new v (ddel String.eqb old d)
  | None => d
  end.
(** api_matcher.py:1242-1279 [paddle_max] ([op] = "max"), 1285-1320 [paddle_min] ("min") *)
Definition extremum (op : string) (args : list value) (kwargs : keywords) : reply :=
  let kwargs := rename "input" "x" kwargs in
  let out := dget String.eqb "out" kwargs in
  let kwargs := ddel String.eqb "out" kwargs in
  let stored (plain : reply) (into : value -> reply) :=
    match out with
    | None => plain
    | Some o => match truth o with Ok true => into o | Ok false => plain | Raise e => Failed e end
    end in
  let both := MkCall ("paddle." ++ op ++ "imum") args in
  let second_is_tensor := match args with [_; b] => is_tensor b | _ => false end in
  if dmem String.eqb "other" kwargs
  then let c := both (rename "other" "y" kwargs) in stored (Value c) (Stored c)
  else if second_is_tensor
  then let c := both kwargs in stored (Value c) (Stored c)
  else
    let kwargs := rename "dim" "axis" kwargs in
    let c := MkCall ("paddle." ++ op) args kwargs in
    let d := MkCall ("paddle.arg" ++ op) args kwargs in
    if dmem String.eqb "axis" kwargs || (2 <=? List.length args)
    then stored (Pair c d) (StoredPair c d)
    else Value c.
(** api_matcher.py:1328-1346 [_Tensor_max], 1390-1408 [_Tensor_min] *)
Definition tensor_extremum (op : string) (self : value) (args : list value) (kwargs : keywords) : reply :=
  let both := MkCall ("paddle." ++ op ++ "imum") (self :: args) in
  let first_is_tensor := match args with [b] => is_tensor b | _ => false end in
  if dmem String.eqb "other" kwargs then Value (both (rename "other" "y" kwargs))
  else if first_is_tensor then Value (both kwargs)
  else
    let kwargs := rename "dim" "axis" kwargs in
    let c := MkCall ("paddle." ++ op) (self :: args) kwargs in
    if dmem String.eqb "axis" kwargs || (1 <=? List.length args)
    then Pair c (MkCall ("paddle.arg" ++ op) (self :: args) kwargs)
    else Value c.

(** ** Scaled operands *)
(** [Number] is anything that is not a [paddle.Tensor]. *)
Inductive operand (T : Type) := Number (q : Q) | Tensor (t : T).
Arguments Number {T} q.
Arguments Tensor {T} t.
(** The three sources of [y], api_matcher.py:690-695 *)
Definition operand_given {T} (args : list (operand T)) (kwargs : list (string * operand T)) : res (operand T) :=
  match dget String.eqb "other" kwargs with
  | Some y => Ok y
  | None => match dget String.eqb "y" kwargs with
            | Some y => Ok y
            | None => match args with y :: _ => Ok y | [] => Raise "IndexError" end
            end
  end.
(** api_matcher.py:696-706 [_Tensor_add] and 729-739 [_Tensor_sub]: the second argument of
    [paddle.add] / [paddle.subtract].  [alpha] is the keyword of that name, kept apart from
    the others. *)
Definition scaled_operand {T} (to_tensor : Q -> T) (scale : Q -> T -> T)
  (args : list (operand T)) (kwargs : list (string * operand T)) (alpha : option Q) : res (operand T) :=
  let* y := operand_given args kwargs in
  match alpha with
  | Some a =>
      if negb (Qeq_bool a 1)
      then match y with
           | Number q => Ok (Tensor (to_tensor (a * q)%Q))
           | Tensor t => Ok (Tensor (scale a t))
           end
      else Ok y
  | None => match y with Number q => Ok (Tensor (to_tensor q)) | Tensor t => Ok (Tensor t) end
  end.
(** api_matcher.py:757-767 [_Tensor_mul], 785-795 [_Tensor_div]: the second argument of
    [paddle.multiply] / [paddle.divide]. *)
Definition plain_operand {T} (to_tensor : Q -> T)
  (args : list (operand T)) (kwargs : list (string * operand T)) : res (operand T) :=
  let* y := operand_given args kwargs in
  match y with Number q => Ok (Tensor (to_tensor q)) | Tensor t => Ok (Tensor t) end.

(** ** Shapes *)
Inductive shape_arg := SInt (z : Z) | SSeq (l : list Z) | SStr (s : string) | SDtype (s : string) | SOther.
(** What [paddle.reshape] / [paddle.view] is asked for. *)
Inductive request := Shape (l : list shape_arg) | Dtype (a : shape_arg).
(** api_matcher.py:3286-3294 [_Tensor_reshape]; the function returns [None] when it gets
    nothing.  [kwargs] has no repeated key. *)
Definition reshape_request (args : list shape_arg) (kwargs : list (string * shape_arg)) : res (option request) :=
  let as_shape a := match a with SSeq l => Shape (map SInt l) | _ => Dtype a end in
  match args with
  | [SSeq l] => Ok (Some (Shape (map SInt l)))
  | _ :: _ => Ok (Some (Shape args))
  | [] => match kwargs with
          | [] => Ok None
          | _ => match dget String.eqb "shape" kwargs with
                 | Some a => Ok (Some (as_shape a))
                 | None => Raise "AssertionError"
                 end
          end
  end.
(** api_matcher.py:4814-4821 [_Tensor_view] *)
Definition view_request (args : list shape_arg) (kwargs : list (string * shape_arg)) : res (option request) :=
  let single a := match a with SSeq l => Shape (map SInt l) | _ => Dtype a end in
  match args with
  | [SSeq l] => Ok (Some (single (SSeq l)))
  | [SStr s] => Ok (Some (single (SStr s)))
  | [SDtype s] => Ok (Some (single (SDtype s)))
  | _ :: _ => Ok (Some (Shape args))
  | [] => match kwargs with
          | [] => Ok None
          | (_, a) :: _ => Ok (Some (single a))
          end
  end.

(** ** Rounding *)
(** api_matcher.py:3776-3780 [_Tensor_round] on one element, in exact arithmetic: [//] is
    the floor of the quotient.  [paddle_round] is [paddle.round]. *)
Definition round_element (paddle_round : Q -> Q) (decimals : option Z) (s : Q) : Q :=
  match decimals with
  | None => paddle_round s
  | Some d =>
      if (d =? 0)%Z then paddle_round s
      else
        let u := Qpower 10 (- d) in
        let x := (inject_Z (Qfloor (Qabs s / u)) * u)%Q in
        if Qlt_le_dec s 0 then (- x)%Q else x
  end.

(** ** Regions of interest *)
(** api_matcher.py:5426-5429, [boxes] a list of tensors: one entry per image, and all
    boxes after each other.  [[0] * n] is empty for negative [n]. *)
Definition boxes_of_list {B} (batch : nat) (boxes : list (list B)) : list nat * list B :=
  (map (@List.length B) boxes ++ repeat 0 (batch - List.length boxes), List.concat boxes).
(** api_matcher.py:5430-5432, [boxes] a tensor whose first column is the image: how often
    each image occurs, and the other columns. *)
Definition boxes_of_tensor {B} (batch : nat) (rows : list (nat * B)) : list nat * list B :=
  (map (fun i => List.length (filter (fun r => Nat.eqb (fst r) i) rows)) (seq 0 batch), map snd rows).

(** ** Copying along an axis *)
(** [t.scatter_(index, source)]: the rows named by [index] are replaced, one after the other. *)
Fixpoint scatter {A} (index : list nat) (source : list A) (t : list A) : list A :=
  match index, source with
  | i :: ri, s :: rs => scatter ri rs (put i s t)
  | _, _ => t
  end.
(** api_matcher.py:2411-2424 [_Tensor_index_copy_].  The tensor is given by the list of its
    rows once everything after the axis is one row ([reshape] to [-1] and the remaining
    lengths); [outer] is the product of the lengths before the axis, 1 for axis 0 (where
    the code takes a shortcut with the same effect).  Negative axes are not modelled. *)
Definition index_copy {A} (outer : nat) (index : list nat) (source : list A) (t : list A) : list A :=
  scatter (List.concat (map (fun i => map (fun k => k + i * List.length index) index) (seq 0 outer))) source t.

(** ** Linear systems *)
(** [trans] of [paddle.linalg.lu_solve]: "N" and "H" *)
Inductive trans := PlainT | HermT.
(** api_matcher.py:5906-5915 [linalg_lu_solve]; [solve t A b] is
    [paddle.linalg.lu_solve(lu, pivots, b, trans)] for the matrix [A] behind [lu] and
    [pivots], [herm] is [.conj().T]. *)
Definition lu_solve {M} (solve : trans -> M -> M -> M) (herm : M -> M) (left adjoint : bool) (a b : M) : M :=
  if left
  then solve (if adjoint then HermT else PlainT) a b
  else herm (solve (if adjoint then PlainT else HermT) a (herm b)).
(** [x.T] in paddle: the axes in reverse order (shape of the result). *)
Definition dot_T (shape : list nat) : list nat := rev shape.

(** ** Splitting *)
(** api_matcher.py:1958-1962 [paddle_split] and 3752-3756 [_Tensor_split]: sections handed
    to [paddle.split] for an axis of length [n]. *)
Definition split_sections (n size : nat) : res nat :=
  match size with O => Raise "ZeroDivisionError" | _ => Ok (n / size) end.

(** ** Names *)
(** api_matcher.py:3977-3990 [get_enum] *)
Definition get_enum (reduction : string) : res Z :=
  if String.eqb reduction "none" then Ok 0%Z
  else if String.eqb reduction "mean" then Ok 1%Z
  else if String.eqb reduction "elementwise_mean" then Ok 1%Z
  else if String.eqb reduction "sum" then Ok 2%Z
  else Raise "ValueError".
(** api_matcher.py:1655-1659 [get_reduce_type] *)
Definition get_reduce_type (type : string) : string :=
  if String.eqb type "sum" then "add" else if String.eqb type "prod" then "multiply" else type.
(** api_matcher.py:5370-5384 [VOCDetection]: the [mode] for [image_set]; the year is checked
    first. *)
Definition voc_mode (year image_set : string) : res string :=
  if negb (String.eqb year "2012") then Raise "ValueError"
  else if String.eqb image_set "trainval" then Ok "train"
  else if String.eqb image_set "train" then Ok "test"
  else if String.eqb image_set "val" then Ok "valid"
  else Raise "ValueError".
(** api_matcher.py:3941-3944 [convert_to_tuple] of [create_tuple_converter(n)] *)
Inductive tuple_input (A : Type) := Iterable (l : list A) | Single (a : A).
Arguments Iterable {A} l.
Arguments Single {A} a.
Definition convert_to_tuple {A} (n : nat) (x : tuple_input A) : list A :=
  match x with Iterable l => l | Single a => repeat a n end.
(** api_matcher.py:5884-5886 [foreach_Tensor_]: the method called on every tensor *)
Definition foreach_method (api : string) : string :=
  match rsplit1 "."%char api with Some (_, m) => m | None => api end.

(** ** Casts *)
(** api_matcher.py:4427-4597: the table in [can_cast]. *)
Definition can_cast_table : list (string * list (string * bool)) := [
  ("bfloat16", [("bfloat16", true); ("float16", true); ("float32", true); ("float64", true); ("complex64", true); ("complex128", true); ("uint8", false); ("int8", false); ("int16", false); ("int32", false); ("int64", false); ("bool", false)]);
  ("float16", [("bfloat16", true); ("float16", true); ("float32", true); ("float64", true); ("complex64", true); ("complex128", true); ("uint8", false); ("int8", false); ("int16", false); ("int32", false); ("int64", false); ("bool", false)]);
  ("float32", [("bfloat16", true); ("float16", true); ("float32", true); ("float64", true); ("complex64", true); ("complex128", true); ("uint8", false); ("int8", false); ("int16", false); ("int32", false); ("int64", false); ("bool", false)]);
  ("float64", [("bfloat16", true); ("float16", true); ("float32", true); ("float64", true); ("complex64", true); ("complex128", true); ("uint8", false); ("int8", false); ("int16", false); ("int32", false); ("int64", false); ("bool", false)]);
  ("complex64", [("bfloat16", false); ("float16", false); ("float32", false); ("float64", false); ("complex64", true); ("complex128", true); ("uint8", false); ("int8", false); ("int16", false); ("int32", false); ("int64", false); ("bool", false)]);
  ("complex128", [("bfloat16", false); ("float16", false); ("float32", false); ("float64", false); ("complex64", true); ("complex128", true); ("uint8", false); ("int8", false); ("int16", false); ("int32", false); ("int64", false); ("bool", false)]);
  ("uint8", [("bfloat16", true); ("float16", true); ("float32", true); ("float64", true); ("complex64", true); ("complex128", true); ("uint8", true); ("int8", true); ("int16", true); ("int32", true); ("int64", true); ("bool", false)]);
  ("int8", [("bfloat16", true); ("float16", true); ("float32", true); ("float64", true); ("complex64", true); ("complex128", true); ("uint8", true); ("int8", true); ("int16", true); ("int32", true); ("int64", true); ("bool", false)]);
  ("int16", [("bfloat16", true); ("float16", true); ("float32", true); ("float64", true); ("complex64", true); ("complex128", true); ("uint8", true); ("int8", true); ("int16", true); ("int32", true); ("int64", true); ("bool", false)]);
  ("int32", [("bfloat16", true); ("float16", true); ("float32", true); ("float64", true); ("complex64", true); ("complex128", true); ("uint8", true); ("int8", true); ("int16", true); ("int32", true); ("int64", true); ("bool", false)]);
  ("int64", [("bfloat16", true); ("float16", true); ("float32", true); ("float64", true); ("complex64", true); ("complex128", true); ("uint8", true); ("int8", true); ("int16", true); ("int32", true); ("int64", true); ("bool", false)]);
  ("bool", [("bfloat16", true); ("float16", true); ("float32", true); ("float64", true); ("complex64", true); ("complex128", true); ("uint8", true); ("int8", true); ("int16", true); ("int32", true); ("int64", true); ("bool", true)])].
(** api_matcher.py:4426, 4598-4602 [can_cast] of two type names in lower case. *)
Definition can_cast (from to : string) : res bool :=
  match dget String.eqb from can_cast_table with
  | Some row => match dget String.eqb to row with Some b => Ok b | None => Raise "KeyError" end
  | None => Raise "KeyError"
  end.

(** ** Eigenvalues *)
(** [paddle.linalg.eigvalsh] / [paddle.linalg.eigh] with [UPLO] *)
Inductive eig_call := Eigvalsh (uplo : string) | Eigh (uplo : string).
(** api_matcher.py:4398-4411 [convert_symeig]: which routine is called and whether the
    results are stored in [out].  [upper] and [eigenvectors] are the truth values given. *)
Definition convert_symeig (upper eigenvectors : option bool) (out : option bool) : eig_call * bool :=
  let uplo := if match upper with Some b => b | None => true end then "U" else "L" in
  (if match eigenvectors with Some b => b | None => false end then Eigh uplo else Eigvalsh uplo,
   match out with Some b => b | None => false end).

(** ** Reduce and scatter *)
(** api_matcher.py:5794-5806 [reduce_scatter_tensor]: the list of tensors handed over, each
    given by its rows.  A row obtained by [unstack] counts as a tensor of one row; its lost
    axis is not represented.  [paddle.split] wants a divisor. *)
Fixpoint chunks {A} (count size : nat) (l : list A) : list (list A) :=
  match count with O => [] | S c => firstn size l :: chunks c size (skipn size l) end.
Definition scatter_pieces {A} (world : nat) (input : list A) : res (list (list A)) :=
  if List.length input =? world then Ok (map (fun r => [r]) input)
  else if (world =? 0) || negb (List.length input mod world =? 0) then Raise "ValueError"
  else Ok (chunks world (List.length input / world) input).
(** The [sync_op] handed over, by the [async_op] received *)
Definition scatter_sync (async_op : option bool) : option bool := option_map negb async_op.

(** ** Head masks *)
(** [t.unsqueeze(i)] on a shape; -1 is after the last axis. *)
Definition unsqueeze (i : nat) (shape : list nat) : list nat := firstn i shape ++ 1 :: skipn i shape.
Definition unsqueeze_last (shape : list nat) : list nat := shape ++ [1].
(** [t.expand(n, -1, -1, -1, -1)] for a first axis of length 1 *)
Definition expand_first (n : nat) (shape : list nat) : list nat := match shape with _ :: r => n :: r | [] => [] end.
(** api_matcher.py:586-594 [_convert_head_mask_to_5d]: shape of the result *)
Definition head_mask_5d (shape : list nat) (layers : nat) : res (list nat) :=
  let shape :=
    if List.length shape =? 1
    then expand_first layers (unsqueeze_last (unsqueeze_last (unsqueeze 0 (unsqueeze 0 shape))))
    else if List.length shape =? 2 then unsqueeze_last (unsqueeze_last (unsqueeze 1 shape))
    else shape in
  if List.length shape =? 5 then Ok shape else Raise "AssertionError".
(** api_matcher.py:596-608 [_get_head_mask]: a mask, or a list of [None] of the given length *)
Inductive mask := Mask (shape : list nat) | Nones (n : nat).
Definition get_head_mask (head_mask : option (list nat)) (layers : nat) (chunked : bool) : res mask :=
  match head_mask with
  | None => Ok (Nones layers)
  | Some shape =>
      let* s := head_mask_5d shape layers in
      Ok (Mask (if chunked then unsqueeze_last s else s))
  end.
