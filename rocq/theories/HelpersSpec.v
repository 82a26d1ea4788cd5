(** What the functions written into paddle_utils.py are meant to do, stated without
    reference to how they are written.  Only the data types of Helpers.v are used. *)
From Verif Require Import PyStr Ast Helpers.
From Coq Require Import Sorting.Sorted.
Open Scope string_scope.
Open Scope list_scope.
Open Scope nat_scope.

(** ** Axes *)
(** The axis [k] of a tensor with [n] axes that the number [d] speaks about. *)
Definition names_axis (n : nat) (d : Z) (k : nat) : Prop :=
  k < n /\ (d = Z.of_nat k \/ d = Z.of_nat k - Z.of_nat n)%Z.
(** torch treats a tensor without axes as having one for this purpose. *)
Definition torch_accepts_axis (n : nat) (d : Z) : Prop :=
  (- Z.of_nat (Nat.max n 1) <= d < Z.of_nat (Nat.max n 1))%Z.
(** [i] (a shape, or the position of an element) with the entries [a] and [b] exchanged *)
Definition exchange (a b : nat) (i : list nat) : list nat :=
  map (fun k => nth (if k =? a then b else if k =? b then a else k) i 0) (seq 0 (List.length i)).
(** What [paddle.transpose(x, perm)] makes of [i]: entry [k] is the old entry [perm[k]]. *)
Definition transposed (perm : list nat) (i : list nat) : list nat := map (fun p => nth p i 0) perm.

(** The axis torch normalises along when none is given: [torch.nn.functional.softmax]. *)
Definition implicit_axis (ndim : nat) : nat := match ndim with 0 | 1 | 3 => 0 | _ => 1 end.

(** ** Devices *)
(** The forms in which a program writes a device for torch, with the device meant:
    [None] for the processor, [Some k] for card [k]. *)
Inductive torch_device : device -> option Z -> option nat -> Prop :=
| by_number k : torch_device (DInt (Z.of_nat k)) None (Some k)
| by_text k : torch_device (DStr ("cuda:" ++ nat_to_str k)) None (Some k)
| by_type k : torch_device (DStr "cuda") (Some (Z.of_nat k)) (Some k)
| cpu : torch_device (DStr "cpu") None None
| cpu_text k : torch_device (DStr ("cpu:" ++ nat_to_str k)) None None
| cpu_type k : torch_device (DStr "cpu") (Some (Z.of_nat k)) None
| cpu_place : torch_device DCpuPlace None None
| cuda_place k : torch_device (DCudaPlace (Z.of_nat k)) None (Some k).
(** paddle's name for it *)
Definition paddle_name (d : option nat) : string :=
  match d with None => "cpu" | Some k => ("gpu:" ++ nat_to_str k)%string end.

(** ** Calls *)
(** Python's rules for arguments: [params] can be given by position or name, [only] by
    name; nothing twice, nothing unknown. *)
Definition accepted (params only : list string) (args : list value) (kwargs : keywords) : Prop :=
  List.length args <= List.length params /\
  NoDup (map fst kwargs) /\
  forall k, In k (map fst kwargs) -> In k (params ++ only) /\ ~ In k (firstn (List.length args) params).
(** The value [v] is given for the parameter [p]. *)
Definition given (params : list string) (args : list value) (kwargs : keywords) (p : string) (v : value) : Prop :=
  (exists i, nth_error params i = Some p /\ nth_error args i = Some v) \/ In (p, v) kwargs.
(** The same values are given for the parameters, which are called differently. *)
Definition same_values (params params' : list string) (args args' : list value) (kwargs kwargs' : keywords) : Prop :=
  forall p p', In (p, p') (combine params params') ->
  forall v, given params args kwargs p v <-> given params' args' kwargs' p' v.

(** ** Arithmetic *)
(** The tensor an operand stands for *)
Definition denotes {T} (to_tensor : Q -> T) (o : operand T) : T :=
  match o with Number q => to_tensor q | Tensor t => t end.

(** [r] is [s] rounded to the nearest multiple of [u]. *)
Definition nearest (u s r : Q) : Prop :=
  (exists k : Z, r == inject_Z k * u)%Q /\ (2 * Qabs (s - r) <= u)%Q.
(** [r] is [s] cut off at a multiple of [u]: not past [s], not beyond zero, less than a
    unit away. *)
Definition cut_off (u s r : Q) : Prop :=
  (exists k : Z, r == inject_Z k * u)%Q /\ (0 <= r * s)%Q /\ (Qabs r <= Qabs s)%Q /\ (Qabs (s - r) < u)%Q.

(** ** Regions of interest *)
(** How [paddle.vision.ops] reads [boxes] and [boxes_num]: the first [boxes_num[0]] boxes
    belong to image 0, the next [boxes_num[1]] to image 1, ... *)
Fixpoint reads_from {B} (image : nat) (nums : list nat) (boxes : list B) : list (nat * B) :=
  match nums with
  | [] => []
  | n :: r => map (pair image) (firstn n boxes) ++ reads_from (S image) r (skipn n boxes)
  end.
Definition paddle_reads {B} (call : list nat * list B) : list (nat * B) := reads_from 0 (fst call) (snd call).
(** torch: the list at position [i] belongs to image [i]. *)
Fixpoint images_from {B} (image : nat) (boxes : list (list B)) : list (nat * B) :=
  match boxes with [] => [] | l :: r => map (pair image) l ++ images_from (S image) r end.

(** ** Copying along an axis *)
(** [torch.Tensor.index_copy_]: in each of the [outer] blocks of [d] rows, row [index[j]]
    becomes row [j] of the corresponding block of [source]; other rows stay. *)
Definition index_copied {A} (outer d : nat) (index : list nat) (source t r : list A) : Prop :=
  List.length r = List.length t /\
  forall i k, i < outer -> k < d ->
  (forall j, nth_error index j = Some k ->
     nth_error r (i * d + k) = nth_error source (i * List.length index + j)) /\
  (~ In k index -> nth_error r (i * d + k) = nth_error t (i * d + k)).

(** ** Linear systems *)
(** The equation [torch.linalg.lu_solve] solves *)
Definition solves {M} (mul : M -> M -> M) (herm : M -> M) (left adjoint : bool) (a b x : M) : Prop :=
  let a := if adjoint then herm a else a in
  if left then mul a x = b else mul x a = b.
(** Shape after exchanging the last two axes *)
Definition last_two_exchanged (shape : list nat) : list nat :=
  match rev shape with
  | a :: b :: r => rev (b :: a :: r)
  | _ => shape
  end.

(** ** Casts *)
(** Kinds of element types in increasing order: truth values, integers, real and complex
    floating-point numbers. *)
Definition kinds : list (list string) :=
  [["bool"]; ["uint8"; "int8"; "int16"; "int32"; "int64"];
   ["bfloat16"; "float16"; "float32"; "float64"]; ["complex64"; "complex128"]].
Definition of_kind (t : string) (k : nat) : Prop := exists l, nth_error kinds k = Some l /\ In t l.

(** ** Reduce and scatter *)
(** What process [r] of [world] receives: the [r]-th of [world] equal parts of the rows. *)
Definition part {A} (world r : nat) (input : list A) : list A :=
  firstn (List.length input / world) (skipn (r * (List.length input / world)) input).

(** ** Head masks *)
(** transformers: a mask over heads (for all layers), over layers and heads, or complete. *)
Inductive mask_for (layers heads : nat) : list nat -> Prop :=
| per_head : mask_for layers heads [heads]
| per_layer : mask_for layers heads [layers; heads].
