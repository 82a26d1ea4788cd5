(** The functions written into paddle_utils.py. *)
From Verif Require Import PyStr PyStrFacts PyDict PyDictFacts Ast Args TablesData Generate PropertiesGenerate.
From Verif Require Import Helpers HelpersSpec HelpersFacts.
From Coq Require Import Lia Permutation Sorting.Sorted Lqa.
Open Scope string_scope.
Open Scope list_scope.
Open Scope nat_scope.

(** An argument as the tool prints it *)
Definition written (t : string) : string := text (MkExpr false false t).

(** ** C95: the axis when none is given *)
(** The helper chooses the axis torch chooses. *)
Theorem C95_helper_rule : forall ndim : nat, softmax_dim (Z.of_nat ndim) = Z.of_nat (implicit_axis ndim).
Proof. exact softmax_rule. Qed.
Print Assumptions C95_helper_rule.
(** What [softmin] becomes: the argument of the helper is [-t.ndim], in Python the
    negated number of axes. *)
Theorem C95_softmin_text : forall t : string,
  PropertiesGenerate.rewrite "torch.nn.functional.softmin" None [t] [] =
  Some (Ret ("paddle.nn.functional.softmax(x=-" ++ written t ++ ", axis=_get_softmin_dim(-" ++ written t ++ ".ndim))", true)%string).
Proof. intros t. vm_compute. reflexivity. Qed.
Print Assumptions C95_softmin_text.
(** So the axis is right exactly for tensors that do not have one or three axes. *)
Theorem C95_softmin_exactly : forall ndim : nat, 0 < ndim ->
  (softmax_dim (- Z.of_nat ndim) = Z.of_nat (implicit_axis ndim) <-> ndim <> 1 /\ ndim <> 3).
Proof.
  intros n L. rewrite negated_rule by exact L. split.
  - intros E. split; intros ->; discriminate E.
  - intros [A B]. destruct n as [|[|[|[|n]]]]; try reflexivity; lia.
Qed.
Print Assumptions C95_softmin_exactly.
(** Expected but not true: [softmin(x)] normalises along the axis torch chooses. *)
Theorem C95_softmin_refuted : exists ndim : nat, softmax_dim (- Z.of_nat ndim) <> Z.of_nat (implicit_axis ndim).
Proof. exists 3. discriminate. Qed.
Print Assumptions C95_softmin_refuted.
(** Expected but not true: [torch.nn.LogSoftmax()] leaves the axis open.  It becomes a
    module with axis 0, for tensors of every shape. *)
Theorem C95_log_softmax_refuted :
  PropertiesGenerate.rewrite "torch.nn.LogSoftmax" None [] [] = Some (Ret ("paddle.nn.LogSoftmax(axis=0)", true)) /\
  exists ndim, implicit_axis ndim <> 0.
Proof. split; [vm_compute; reflexivity|exists 2; discriminate]. Qed.
Print Assumptions C95_log_softmax_refuted.
Example C95_nonvacuous :
  map (fun n => softmax_dim (Z.of_nat n)) (seq 0 6) = [0; 0; 1; 0; 1; 1]%Z /\ softmax_dim (-2) = 1%Z /\
  PropertiesGenerate.rewrite "torch.nn.Softmin" None [] [] = Some (Ret ("Softmin(axis=None)", true)).
Proof. repeat split; vm_compute; reflexivity. Qed.

(** ** C96: devices *)
Theorem C96_device_named :
  forall (type : device) (index : option Z) (d : option nat),
  torch_device type index d -> device2str type index DNone = DStr (paddle_name d).
Proof. exact device_named. Qed.
Print Assumptions C96_device_named.
(** No text that comes out speaks of [cuda], and converting it again changes nothing. *)
Theorem C96_settled : forall s r : string,
  device2str (DStr s) None DNone = DStr r -> contains "cuda" r = false /\ device2str (DStr r) None DNone = DStr r.
Proof. exact device_text_settled. Qed.
Print Assumptions C96_settled.
Theorem C96_by_keyword : forall (t : device) (d : option nat),
  torch_device t None d -> t <> DInt 0 -> device2str DNone None t = DStr (paddle_name d).
Proof. exact device_by_keyword. Qed.
Print Assumptions C96_by_keyword.
(** Expected but not true: [device=0] is card 0. *)
Theorem C96_card_zero_refuted : exists t k,
  torch_device t None (Some k) /\ device2str DNone None t = DStr "cpu".
Proof. exists (DInt 0), 0. split; [apply (by_number 0)|reflexivity]. Qed.
Print Assumptions C96_card_zero_refuted.
Example C96_nonvacuous :
  torch_device (DStr "cuda:12") None (Some 12) /\ device2str (DStr "cuda:12") None DNone = DStr "gpu:12" /\
  device2str (DStr "xcuda") None DNone = DStr "xgpu" /\
  PropertiesGenerate.rewrite "torch.cpu.set_device" None ["dev"] [] = Some (Ret ("paddle.device.set_device(device=device2str(dev))", true)).
Proof. split; [exact (by_text 12)|]. repeat split; vm_compute; reflexivity. Qed.

(** ** C97: Tensor.max and Tensor.min *)
(** With an axis the helper returns the pair of values and positions, and paddle gets the
    same axis and the same [keepdim]. *)
Theorem C97_along_an_axis :
  forall (op : string) (self : value) (args : list value) (kwargs : keywords),
  accepted ["self"; "dim"; "keepdim"] [] (self :: args) kwargs ->
  (exists v, given ["self"; "dim"; "keepdim"] (self :: args) kwargs "dim" v) ->
  (forall b, args = [b] -> is_tensor b = false) ->
  exists k,
    tensor_extremum op self args kwargs =
      Pair (MkCall ("paddle." ++ op) (self :: args) k) (MkCall ("paddle.arg" ++ op) (self :: args) k) /\
    accepted ["x"; "axis"; "keepdim"] [] (self :: args) k /\
    same_values ["self"; "dim"; "keepdim"] ["x"; "axis"; "keepdim"] (self :: args) (self :: args) kwargs k.
Proof. exact tensor_extremum_along. Qed.
Print Assumptions C97_along_an_axis.
Theorem C97_of_two_tensors :
  forall (op : string) (self : value) (args : list value) (kwargs : keywords),
  accepted ["self"; "other"] [] (self :: args) kwargs ->
  (exists v, given ["self"; "other"] (self :: args) kwargs "other" v) ->
  (forall b, args = [b] -> is_tensor b = true) ->
  exists k,
    tensor_extremum op self args kwargs = Value (MkCall ("paddle." ++ op ++ "imum") (self :: args) k) /\
    accepted ["x"; "y"] [] (self :: args) k /\
    same_values ["self"; "other"] ["x"; "y"] (self :: args) (self :: args) kwargs k.
Proof. exact tensor_extremum_pairwise. Qed.
Print Assumptions C97_of_two_tensors.
Theorem C97_of_all : forall (op : string) (self : value),
  tensor_extremum op self [] [] = Value (MkCall ("paddle." ++ op) [self] []).
Proof. reflexivity. Qed.
Print Assumptions C97_of_all.
Definition a_tensor (s : string) : value := MkValue true (Raise "ValueError") s.
Definition a_number (s : string) : value := MkValue false (Ok true) s.
Example C97_nonvacuous :
  accepted ["self"; "dim"; "keepdim"] [] [a_tensor "t"] [("keepdim", a_number "True"); ("dim", a_number "1")] /\
  given ["self"; "dim"; "keepdim"] [a_tensor "t"] [("keepdim", a_number "True"); ("dim", a_number "1")] "dim" (a_number "1") /\
  tensor_extremum "max" (a_tensor "t") [a_tensor "u"] [] = Value (MkCall "paddle.maximum" [a_tensor "t"; a_tensor "u"] []).
Proof.
  split; [|split; [right; right; left; reflexivity|reflexivity]].
  split; [cbn; lia|]. split; [repeat constructor; cbn; intuition discriminate|].
  intros k [<-|[<-|[]]]; (split; [cbn; auto|cbn; intuition discriminate]).
Qed.

(** ** C98: regions of interest *)
Theorem C98_list_of_boxes : forall (B : Type) (batch : nat) (boxes : list (list B)),
  paddle_reads (boxes_of_list batch boxes) = images_from 0 boxes.
Proof. intros B. exact boxes_list_read. Qed.
Print Assumptions C98_list_of_boxes.
(** A tensor of boxes is read as torch reads it exactly if it is ordered by image. *)
Theorem C98_tensor_exactly : forall (B : Type) (batch : nat) (rows : list (nat * B)),
  Forall (fun r => fst r < batch) rows ->
  (paddle_reads (boxes_of_tensor batch rows) = rows <-> StronglySorted le (map fst rows)).
Proof. intros B. exact boxes_tensor_exact. Qed.
Print Assumptions C98_tensor_exactly.
(** Expected but not true: every box stays with its image. *)
Theorem C98_order_refuted : exists (batch : nat) (rows : list (nat * string)),
  Forall (fun r => fst r < batch) rows /\
  exists box i j, i <> j /\ In (i, box) rows /\ In (j, box) (paddle_reads (boxes_of_tensor batch rows)) /\ NoDup (map snd rows).
Proof.
  exists 2, [(1, "a"); (0, "b")]. split; [repeat constructor|]. exists "a", 1, 0. split; [discriminate|]. split; [left; reflexivity|].
  split; [left; reflexivity|]. repeat constructor; cbn; intuition discriminate.
Qed.
Print Assumptions C98_order_refuted.
Example C98_nonvacuous :
  paddle_reads (boxes_of_list 3 [["a"; "b"]; ["c"]]) = [(0, "a"); (0, "b"); (1, "c")] /\
  paddle_reads (boxes_of_tensor 3 [(0, "a"); (2, "b"); (2, "c")]) = [(0, "a"); (2, "b"); (2, "c")] /\
  Forall (fun r : nat * string => fst r < 3) [(0, "a"); (2, "b"); (2, "c")] /\ boxes_of_list 3 [["a"]] = ([1; 0; 0], ["a"]) /\
  PropertiesGenerate.rewrite "torchvision.ops.roi_align" None ["x"; "b"; "7"] [] = Some (Ret ("
roi_align(input=x, boxes=b, output_size=7)
", true)).
Proof. repeat split; try (vm_compute; reflexivity); repeat constructor. Qed.

(** ** C99: linear systems *)
(** The result solves the equation torch solves, for any multiplication and adjoint with
    the laws of matrices and any correct [paddle.linalg.lu_solve]. *)
Theorem C99_solution :
  forall (M : Type) (mul : M -> M -> M) (herm : M -> M) (solve : trans -> M -> M -> M) (left adjoint : bool) (a b : M),
  (forall x y, herm (mul x y) = mul (herm y) (herm x)) -> (forall x, herm (herm x) = x) ->
  (forall c, mul a (solve PlainT a c) = c) -> (forall c, mul (herm a) (solve HermT a c) = c) ->
  solves mul herm left adjoint a b (lu_solve solve herm left adjoint a b).
Proof. intros M. exact lu_solve_right. Qed.
Print Assumptions C99_solution.
(** Expected but not true: batches of matrices are transposed one by one. *)
Theorem C99_batches_refuted : exists shape, 2 <= List.length shape /\ dot_T shape <> last_two_exchanged shape.
Proof. exists [4; 2; 3]. split; [cbn; lia|discriminate]. Qed.
Print Assumptions C99_batches_refuted.
Theorem C99_single_matrices : forall n k, dot_T [n; k] = last_two_exchanged [n; k].
Proof. reflexivity. Qed.
Print Assumptions C99_single_matrices.
(** Matrices of two rows over the integers, with determinant 1 *)
Definition mat : Type := (Z * Z) * (Z * Z).
Definition mat_mul (m n : mat) : mat :=
  let '((a, b), (c, d)) := m in let '((e, f), (g, h)) := n in
  ((a * e + b * g, a * f + b * h), (c * e + d * g, c * f + d * h))%Z.
Definition mat_T (m : mat) : mat := let '((a, b), (c, d)) := m in ((a, c), (b, d)).
Definition mat_inv (m : mat) : mat := let '((a, b), (c, d)) := m in ((d, - b), (- c, a))%Z.
Definition mat_solve (t : trans) (a b : mat) : mat :=
  mat_mul (mat_inv (match t with PlainT => a | HermT => mat_T a end)) b.
Definition mat_a : mat := ((2, 3), (3, 5))%Z.
Definition mat_n : mat := ((1, 2), (0, 1))%Z.
Lemma mat_laws (m : mat) : let '((a, b), (c, d)) := m in (a * d - b * c = 1)%Z ->
  (forall x, mat_mul m (mat_solve PlainT m x) = x) /\ (forall x, mat_mul (mat_T m) (mat_solve HermT m x) = x).
Proof.
  destruct m as [[a b] [c d]]. intros D.
  split; intros [[e f] [g h]]; cbv [mat_solve mat_mul mat_inv mat_T];
    (apply f_equal2; apply f_equal2);
    match goal with |- _ = ?x => rewrite <- (Z.mul_1_l x) at 3; rewrite <- D; ring end.
Qed.
Example C99_nonvacuous :
  (forall x y, mat_T (mat_mul x y) = mat_mul (mat_T y) (mat_T x)) /\ (forall x, mat_T (mat_T x) = x) /\
  (forall x, mat_mul mat_n (mat_solve PlainT mat_n x) = x) /\ (forall x, mat_mul (mat_T mat_n) (mat_solve HermT mat_n x) = x) /\
  mat_mul mat_n mat_a <> mat_mul mat_a mat_n /\
  mat_mul (lu_solve mat_solve mat_T false false mat_n mat_a) mat_n = mat_a.
Proof.
  split. { intros [[a b] [c d]] [[e f] [g h]]. cbv [mat_mul mat_T]. apply f_equal2; apply f_equal2; ring. }
  split. { intros [[a b] [c d]]. reflexivity. }
  split; [exact (proj1 (mat_laws mat_n eq_refl))|]. split; [exact (proj2 (mat_laws mat_n eq_refl))|].
  split; [discriminate|reflexivity].
Qed.

(** ** C100: casts *)
Theorem C100_can_cast : forall (a : string) (i : nat) (b : string) (j : nat),
  of_kind a i -> of_kind b j -> can_cast a b = Ok (i <=? j).
Proof. exact casts_right. Qed.
Print Assumptions C100_can_cast.
Theorem C100_unknown : forall a b : string,
  (~ exists k, of_kind a k) \/ (~ exists k, of_kind b k) -> can_cast a b = Raise "KeyError".
Proof. exact casts_refused. Qed.
Print Assumptions C100_unknown.
Example C100_nonvacuous :
  of_kind "int64" 1 /\ of_kind "float16" 2 /\ can_cast "int64" "float16" = Ok true /\ can_cast "float16" "int64" = Ok false /\
  can_cast "uint16" "int64" = Raise "KeyError".
Proof. split; [eexists; split; [reflexivity|cbn; auto 10]|]. split; [eexists; split; [reflexivity|cbn; auto 10]|]. repeat split. Qed.

(** ** C101: operations on lists of tensors *)
(** Each row for a list operation applies the operation of the same name, in place if torch
    works in place. *)
Definition foreach_ok (r : row) : bool :=
  match r_matcher r, paddle_api (r_entry r) with
  | Some "ForeachMatcher", Some api =>
      match rsplit1 "."%char api with
      | Some (p, m) => String.eqb p "paddle" && String.eqb (r_name r) ("torch._foreach_" ++ m)
      | None => false
      end
  | Some "ForeachTensorMatcher", Some api => String.eqb (r_name r) ("torch._foreach_" ++ foreach_method api)
  | Some "ForeachMatcher", None | Some "ForeachTensorMatcher", None => false
  | _, _ => true
  end.
Lemma foreach_checked : forallb foreach_ok api_mapping = true.
Proof. vm_compute. reflexivity. Qed.
Lemma rsplit1_join (api p m : string) : rsplit1 "."%char api = Some (p, m) -> api = (p ++ "." ++ m)%string.
Proof.
  revert p. induction api as [|c r IH]; intros p E; [discriminate E|]. cbn [rsplit1] in E.
  destruct (rsplit1 "."%char r) as [[a b]|] eqn:F.
  - injection E as <- <-. rewrite (IH a eq_refl). reflexivity.
  - destruct (Ascii.eqb_spec c "."%char) as [->|]; [|discriminate E]. injection E as <- <-. reflexivity.
Qed.
Theorem C101_method_called : forall r : row,
  In r api_mapping -> r_matcher r = Some "ForeachTensorMatcher" ->
  exists api, paddle_api (r_entry r) = Some api /\ r_name r = ("torch._foreach_" ++ foreach_method api)%string.
Proof.
  intros r I M. pose proof foreach_checked as C. rewrite forallb_forall in C. specialize (C r I). unfold foreach_ok in C. rewrite M in C.
  destruct (paddle_api (r_entry r)) as [api|]; [|discriminate C]. exists api. split; [reflexivity|]. apply String.eqb_eq, C.
Qed.
Print Assumptions C101_method_called.
Theorem C101_function_called : forall r : row,
  In r api_mapping -> r_matcher r = Some "ForeachMatcher" ->
  exists m, paddle_api (r_entry r) = Some ("paddle." ++ m)%string /\ r_name r = ("torch._foreach_" ++ m)%string.
Proof.
  intros r I M. pose proof foreach_checked as C. rewrite forallb_forall in C. specialize (C r I). unfold foreach_ok in C. rewrite M in C.
  destruct (paddle_api (r_entry r)) as [api|]; [|discriminate C]. destruct (rsplit1 "."%char api) as [[p m]|] eqn:S; [|discriminate C].
  apply andb_true_iff in C as [P C]. apply String.eqb_eq in P, C. subst p. exists m. split; [|exact C]. f_equal.
  exact (rsplit1_join _ _ _ S).
Qed.
Print Assumptions C101_function_called.
Example C101_nonvacuous :
  PropertiesGenerate.rewrite "torch._foreach_ceil_" None ["l"] [] = Some (Ret ("
foreach_Tensor_(l,""paddle.Tensor.ceil_"")
", true)) /\ foreach_method "paddle.Tensor.ceil_" = "ceil_" /\
  List.length (filter (fun r => match r_matcher r with Some "ForeachMatcher" => true | _ => false end) api_mapping) = 44 /\
  List.length (filter (fun r => match r_matcher r with Some "ForeachTensorMatcher" => true | _ => false end) api_mapping) = 9.
Proof. vm_compute. auto. Qed.

(** ** C102: reduce and scatter *)
Theorem C102_parts : forall (A : Type) (world : nat) (input : list A),
  0 < world -> List.length input mod world = 0 ->
  exists l, scatter_pieces world input = Ok l /\ List.length l = world /\
    forall r, r < world -> nth_error l r = Some (part world r input).
Proof. intros A. exact pieces_right. Qed.
Print Assumptions C102_parts.
Theorem C102_uneven : forall (A : Type) (world : nat) (input : list A),
  0 < world -> List.length input mod world <> 0 -> scatter_pieces world input = Raise "ValueError".
Proof. intros A. exact pieces_refused. Qed.
Print Assumptions C102_uneven.
Theorem C102_synchronous : forall a : bool, scatter_sync (Some a) = Some (negb a).
Proof. reflexivity. Qed.
Print Assumptions C102_synchronous.
(** Expected but not true: what is left out keeps its default (torch adds up, and waits).
    [None] is handed over for the operation and for [sync_op]. *)
Theorem C102_defaults_refuted : forall a b : string,
  PropertiesGenerate.rewrite "torch.distributed.reduce_scatter_tensor" None [a; b] [] =
    Some (Ret (nls ++ "reduce_scatter_tensor(" ++ written a ++ "," ++ written b ++ ",None,None,None)" ++ nls, true)%string) /\
  scatter_sync None <> Some true.
Proof. intros a b. split; [vm_compute; reflexivity|discriminate]. Qed.
Print Assumptions C102_defaults_refuted.
Example C102_nonvacuous :
  scatter_pieces 2 [1; 2; 3; 4] = Ok [[1; 2]; [3; 4]] /\ scatter_pieces 3 [1; 2; 3] = Ok [[1]; [2]; [3]] /\
  part 2 1 [1; 2; 3; 4] = [3; 4] /\ scatter_pieces 2 [1; 2; 3] = Raise "ValueError".
Proof. repeat split. Qed.

(** ** C103: symmetric eigenvalues *)
Theorem C103_routine : forall (upper eigenvectors out : option bool),
  convert_symeig upper eigenvectors out =
  (match eigenvectors, upper with
   | Some true, Some false => Eigh "L"
   | Some true, _ => Eigh "U"
   | _, Some false => Eigvalsh "L"
   | _, _ => Eigvalsh "U"
   end, match out with Some b => b | None => false end).
Proof. intros [[]|] [[]|] out; reflexivity. Qed.
Print Assumptions C103_routine.
Theorem C103_call : forall a e u : string,
  PropertiesGenerate.rewrite "torch.symeig" None [a; e; u] [] =
    Some (Ret ("convert_symeig(input=" ++ written a ++ ", eigenvectors=" ++ written e ++ ", upper=" ++ written u ++ ")", true)%string).
Proof. intros a e u. vm_compute. reflexivity. Qed.
Print Assumptions C103_call.
Example C103_nonvacuous : convert_symeig None (Some true) None = (Eigh "U", false).
Proof. reflexivity. Qed.

(** ** C104: head masks *)
Theorem C104_mask_shape : forall layers heads shape,
  mask_for layers heads shape -> get_head_mask (Some shape) layers false = Ok (Mask [layers; 1; heads; 1; 1]).
Proof. intros layers heads shape []; reflexivity. Qed.
Print Assumptions C104_mask_shape.
Theorem C104_complete_kept : forall layers shape,
  List.length shape = 5 -> get_head_mask (Some shape) layers false = Ok (Mask shape).
Proof. intros layers shape L. unfold get_head_mask, head_mask_5d. rewrite L. cbn [Nat.eqb]. rewrite L. reflexivity. Qed.
Print Assumptions C104_complete_kept.
Theorem C104_chunked : forall layers mask shape,
  get_head_mask (Some mask) layers false = Ok (Mask shape) -> get_head_mask (Some mask) layers true = Ok (Mask (shape ++ [1])).
Proof.
  intros layers mask shape. unfold get_head_mask. destruct (head_mask_5d mask layers) as [s|e]; cbn [bind]; [|discriminate].
  intros E. injection E as ->. reflexivity.
Qed.
Print Assumptions C104_chunked.
Theorem C104_otherwise : forall layers shape,
  (List.length shape <> 1 -> List.length shape <> 2 -> List.length shape <> 5 ->
   forall c, get_head_mask (Some shape) layers c = Raise "AssertionError") /\
  (forall c, get_head_mask None layers c = Ok (Nones layers)).
Proof.
  intros layers shape. split; [|reflexivity]. intros A B C c. unfold get_head_mask, head_mask_5d.
  destruct (Nat.eqb_spec (List.length shape) 1); [congruence|]. destruct (Nat.eqb_spec (List.length shape) 2); [congruence|].
  destruct (Nat.eqb_spec (List.length shape) 5); [congruence|]. reflexivity.
Qed.
Print Assumptions C104_otherwise.
Example C104_nonvacuous : mask_for 12 8 [8] /\ head_mask_5d [12; 8] 12 = Ok [12; 1; 8; 1; 1].
Proof. split; [constructor|reflexivity]. Qed.

(** ** C105: names and tuples *)
Theorem C105_reductions :
  get_enum "none" = Ok 0%Z /\ get_enum "mean" = Ok 1%Z /\ get_enum "elementwise_mean" = Ok 1%Z /\ get_enum "sum" = Ok 2%Z /\
  forall s, ~ In s ["none"; "mean"; "elementwise_mean"; "sum"] -> get_enum s = Raise "ValueError".
Proof.
  repeat split. intros s N. unfold get_enum.
  destruct (String.eqb_spec s "none"); [exfalso; apply N; subst; cbn; auto|]. destruct (String.eqb_spec s "mean"); [exfalso; apply N; subst; cbn; auto|].
  destruct (String.eqb_spec s "elementwise_mean"); [exfalso; apply N; subst; cbn; auto|]. destruct (String.eqb_spec s "sum"); [exfalso; apply N; subst; cbn; auto|]. reflexivity.
Qed.
Print Assumptions C105_reductions.
(** paddle's names for the parts of VOC 2012: "train" reads [trainval], "test" reads
    [train], "valid" reads [val] (documentation of [paddle.vision.datasets.VOC2012]). *)
Definition voc_part (mode : string) : option string :=
  dget String.eqb mode [("train", "trainval"); ("test", "train"); ("valid", "val")].
Theorem C105_voc_part : forall part mode : string,
  voc_mode "2012" part = Ok mode -> voc_part mode = Some part.
Proof.
  intros p m. unfold voc_mode. cbn [String.eqb]. cbn -[String.eqb].
  destruct (String.eqb_spec p "trainval") as [->|]; [intros E; injection E as <-; reflexivity|].
  destruct (String.eqb_spec p "train") as [->|]; [intros E; injection E as <-; reflexivity|].
  destruct (String.eqb_spec p "val") as [->|]; [intros E; injection E as <-; reflexivity|discriminate].
Qed.
Print Assumptions C105_voc_part.
Theorem C105_voc_other_years : forall year part : string, year <> "2012" -> voc_mode year part = Raise "ValueError".
Proof. intros y p N. unfold voc_mode. destruct (String.eqb_spec y "2012"); [congruence|reflexivity]. Qed.
Print Assumptions C105_voc_other_years.
Theorem C105_tuples : forall (A : Type) (n : nat) (l : list A) (a : A),
  convert_to_tuple n (Iterable l) = l /\
  List.length (convert_to_tuple n (Single a)) = n /\ forall b, In b (convert_to_tuple n (Single a)) -> b = a.
Proof. intros A n l a. split; [reflexivity|]. split; [apply repeat_length|]. intros b I. symmetry. symmetry. apply (repeat_spec n), I. Qed.
Print Assumptions C105_tuples.
Example C105_nonvacuous : voc_mode "2012" "train" = Ok "test" /\ convert_to_tuple 2 (Single 7) = [7; 7].
Proof. split; reflexivity. Qed.

(** ** C106: helpers no row of the tables asks for *)
Definition idle_classes : list string :=
  ["TransposeMatcher"; "TensorTransposeMatcher"; "TensorIndexCopyMatcher"; "TensorRoundMatcher"; "TensorAddMatcher";
   "TensorSubtractMatcher"; "TensorMultiplyMatcher"; "TensorDivideMatcher"; "MaxMatcher"; "MinMatcher";
   "TensorReshapeMatcher"; "TensorViewMatcher"; "Device2IntMatcher"; "CudaGetRngStateMatcher"; "SplitMatcher"; "ScatterReduceMatcher"].
Lemma idle_checked : forallb (fun r => match r_matcher r with Some m => negb (mem_str m idle_classes) | None => true end) api_mapping = true.
Proof. vm_compute. reflexivity. Qed.
Theorem C106_not_reached : forall r m, In r api_mapping -> r_matcher r = Some m -> ~ In m idle_classes.
Proof.
  intros r m I M J. pose proof idle_checked as C. rewrite forallb_forall in C. specialize (C r I). cbn beta in C. rewrite M in C.
  apply mem_str_In in J. rewrite J in C. discriminate C.
Qed.
Print Assumptions C106_not_reached.
Theorem C106_axes_exchanged : forall (n : nat) (d0 d1 : Z) (a b : nat),
  names_axis n d0 a -> names_axis n d1 b ->
  exists perm, dim2perm n d0 d1 = Ok perm /\ Permutation perm (seq 0 n) /\
    forall i, List.length i = n -> transposed perm i = exchange a b i.
Proof. exact axes_exchanged. Qed.
Print Assumptions C106_axes_exchanged.
Theorem C106_axes_refused : forall (n : nat) (d0 d1 : Z),
  dim2perm n d0 d1 = Raise "IndexError" <-> (~ exists a, names_axis n d0 a) \/ (~ exists b, names_axis n d1 b).
Proof. exact axes_refused. Qed.
Print Assumptions C106_axes_refused.
(** Expected but not true: axes torch accepts are accepted (a tensor without axes). *)
Theorem C106_scalar_refuted : exists n d0 d1, torch_accepts_axis n d0 /\ torch_accepts_axis n d1 /\ dim2perm n d0 d1 = Raise "IndexError".
Proof. exists 0, 0%Z, (-1)%Z. repeat split; cbn; lia. Qed.
Print Assumptions C106_scalar_refuted.
Theorem C106_index_copy_exactly :
  forall (outer d : nat) (index : list nat),
  NoDup index -> Forall (fun k => k < d) index -> index <> [] -> 1 <= outer ->
  ((forall source t : list nat, List.length t = outer * d -> List.length source = outer * List.length index ->
      index_copied outer d index source t (index_copy outer index source t)) <->
   List.length index = d \/ outer = 1).
Proof.
  intros outer d index N F NE L. split.
  - intros E. destruct (Nat.eq_dec (List.length index) d) as [A|A]; [auto|]. destruct (Nat.eq_dec outer 1) as [B|B]; [auto|]. exfalso.
    apply (index_copy_wrong outer d index N F NE A ltac:(lia)). apply E; apply repeat_length.
  - intros C source t LT LS. apply index_copy_right; assumption.
Qed.
Print Assumptions C106_index_copy_exactly.
Theorem C106_round_cuts_off : forall (paddle_round : Q -> Q) (d : Z) (s : Q),
  d <> 0%Z -> cut_off (Qpower 10 (- d)) s (round_element paddle_round (Some d) s).
Proof. exact round_cut_off. Qed.
Print Assumptions C106_round_cuts_off.
(** Expected but not true: [round] with [decimals] rounds to the nearest. *)
Theorem C106_round_refuted : exists (d : Z) (s : Q), forall paddle_round, ~ nearest (Qpower 10 (- d)) s (round_element paddle_round (Some d) s).
Proof.
  exists 1%Z, (126 # 100). intros f (_ & X). apply Qle_bool_iff in X. vm_compute in X. discriminate X.
Qed.
Print Assumptions C106_round_refuted.
Theorem C106_scaled : forall (T : Type) (to_tensor : Q -> T) (scale : Q -> T -> T) (args : list (operand T))
    (kwargs : list (string * operand T)) (alpha : option Q) (y : operand T),
  (forall a q, to_tensor (a * q)%Q = scale a (to_tensor q)) -> (forall a t, (a == 1)%Q -> scale a t = t) ->
  operand_given args kwargs = Ok y ->
  exists o, scaled_operand to_tensor scale args kwargs alpha = Ok o /\
    denotes to_tensor o = scale (match alpha with Some a => a | None => 1%Q end) (denotes to_tensor y) /\
    ((exists t, o = Tensor t) <-> ~ (exists q a, y = Number q /\ alpha = Some a /\ (a == 1)%Q)).
Proof. intros T. exact operand_scaled. Qed.
Print Assumptions C106_scaled.
Theorem C106_max_along : forall (op : string) (args : list value) (kwargs : keywords),
  accepted ["input"; "dim"; "keepdim"] ["out"] args kwargs ->
  (exists v, given ["input"; "dim"; "keepdim"] args kwargs "dim" v) ->
  (forall a b, args = [a; b] -> is_tensor b = false) ->
  exists k,
    let c := MkCall ("paddle." ++ op) args k in
    let d := MkCall ("paddle.arg" ++ op) args k in
    extremum op args kwargs = with_out kwargs (Pair c d) (StoredPair c d) /\
    accepted ["x"; "axis"; "keepdim"] [] args k /\
    same_values ["input"; "dim"; "keepdim"] ["x"; "axis"; "keepdim"] args args kwargs k.
Proof. exact extremum_along. Qed.
Print Assumptions C106_max_along.
Theorem C106_max_pairwise : forall (op : string) (args : list value) (kwargs : keywords),
  accepted ["input"; "other"] ["out"] args kwargs ->
  (exists v, given ["input"; "other"] args kwargs "other" v) ->
  (forall a b, args = [a; b] -> is_tensor b = true) ->
  exists k,
    let c := MkCall ("paddle." ++ op ++ "imum") args k in
    extremum op args kwargs = with_out kwargs (Value c) (Stored c) /\
    accepted ["x"; "y"] [] args k /\ same_values ["input"; "other"] ["x"; "y"] args args kwargs k.
Proof. exact extremum_pairwise. Qed.
Print Assumptions C106_max_pairwise.
Theorem C106_max_all : forall (op : string) (args : list value) (kwargs : keywords),
  accepted ["input"] [] args kwargs ->
  exists k, extremum op args kwargs = Value (MkCall ("paddle." ++ op) args k) /\
    accepted ["x"] [] args k /\ same_values ["input"] ["x"] args args kwargs k.
Proof. exact extremum_all. Qed.
Print Assumptions C106_max_all.
(** Expected but not true: [out=] receives the result.  The helper asks for the truth value
    of the tensor, which fails for a tensor with several elements. *)
Theorem C106_out_refuted : exists args kwargs,
  accepted ["input"; "other"] ["out"] args kwargs /\ (forall a b, args = [a; b] -> is_tensor b = true) /\ extremum "max" args kwargs = Failed "ValueError".
Proof.
  exists [a_tensor "a"; a_tensor "b"], [("out", a_tensor "o")]. split; [|split; [intros a b E; injection E as <- <-; reflexivity|reflexivity]].
  split; [cbn; lia|]. split; [repeat constructor; cbn; tauto|]. intros k [<-|[]]. split; [cbn; auto|cbn; intuition discriminate].
Qed.
Print Assumptions C106_out_refuted.
Theorem C106_shapes : forall l : list Z,
  reshape_request [SSeq l] [] = Ok (Some (Shape (map SInt l))) /\
  reshape_request [] [("shape", SSeq l)] = Ok (Some (Shape (map SInt l))) /\
  view_request [SSeq l] [] = Ok (Some (Shape (map SInt l))) /\
  (l <> [] -> reshape_request (map SInt l) [] = Ok (Some (Shape (map SInt l))) /\ view_request (map SInt l) [] = Ok (Some (Shape (map SInt l)))).
Proof. intros l. repeat split; destruct l as [|a [|]]; congruence || reflexivity. Qed.
Print Assumptions C106_shapes.
Theorem C106_device_number : forall k : nat,
  device2int (DStr ("cuda:" ++ nat_to_str k)) = Ok (Z.of_nat k) /\
  rng_state_index (DStr ("cuda:" ++ nat_to_str k)) = Ok (Some (Z.of_nat k)).
Proof. intros k. split; [apply device_number|]. apply (rng_index "cuda"). cbn. repeat split; discriminate. Qed.
Print Assumptions C106_device_number.
(** Expected but not true: a device that went through [torch.device] is understood. *)
Theorem C106_converted_device_refuted : forall k : nat,
  device2str (DStr ("cuda:" ++ nat_to_str k)) None DNone = DStr ("gpu:" ++ nat_to_str k) /\
  device2int (DStr ("gpu:" ++ nat_to_str k)) = Raise "ValueError".
Proof. intros k. split; [exact (device_named _ _ _ (by_text k))|apply paddle_text_refused]. Qed.
Print Assumptions C106_converted_device_refuted.
Example C106_nonvacuous :
  names_axis 3 (-1) 2 /\ dim2perm 3 (-1) 0 = Ok [2; 1; 0] /\ index_copy 2 [1; 0] ["a"; "b"; "c"; "d"] ["w"; "x"; "y"; "z"] = ["b"; "a"; "d"; "c"] /\
  index_copy 2 [0] ["a"; "b"] ["w"; "x"; "y"; "z"] = ["a"; "b"; "y"; "z"] /\
  device2int (DStr "cuda:3") = Ok 3%Z /\ device2int (DStr "cuda") = Raise "ValueError".
Proof. split; [split; [lia|right; reflexivity]|]. repeat split. Qed.
