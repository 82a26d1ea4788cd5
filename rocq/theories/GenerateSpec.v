(** Vocabulary for the properties of generated code. *)
From Verif Require Import PyStr PyDict Args ArgsSpec TablesData Generate.

(** Rows that describe a method: the call has a receiver. *)
Definition method_classes : list string :=
  ["torch.Tensor."; "torch.nn.Module."; "torch.optim.Optimizer.";
   "torch.autograd.function.FunctionCtx."; "torch.distributions.distribution.Distribution."].
Definition is_method (r : row) : Prop := exists c m, In c method_classes /\ r_name r = c ++ m.
(** Methods are called on a receiver, functions are not. *)
Definition called_properly (r : row) (recv : option string) : Prop :=
  (exists v, recv = Some v) <-> is_method r.

(** The parameters in a signature: all names but the marker "*". *)
Definition parameters (e : entry) : list string :=
  filter (fun k => negb (String.eqb k "*")) (args_list e ++ overload_args_list e)%list.
(** Every keyword of the call is the name of a parameter. *)
Definition documented (e : entry) (kwargs : list kwnode) : Prop :=
  forall n, In n kwargs -> exists k, kw_arg n = Some k /\ In k (parameters e).

(** The call binds parameter [k] to the text [v]. *)
Definition supplies (e : entry) (args : list expr) (kwargs : list kwnode) (k v : string) : Prop :=
  last_binding (Some k) (bindings (position_args e) args kwargs) = Some v.

(** Parameters a correct call must give: the first "min_input_args" ones, except where
    the table is wrong about the API, and none for an API with two signatures. *)
Definition mandatory : list (string * list string) :=
  [("fairscale.nn.model_parallel.layers.ParallelEmbedding", ["num_embeddings"; "embedding_dim"]);
   ("flash_attn.flash_attn_interface.flash_attn_unpadded_func", ["q"]);
   ("torch.can_cast", ["from_"; "to"]);
   ("torch.frombuffer", ["buffer"; "dtype"]);
   ("torch.jit.save", ["m"; "f"]);
   ("torch.nn.functional.fractional_max_pool2d", ["input"; "kernel_size"]);
   ("torch.nn.functional.fractional_max_pool3d", ["input"; "kernel_size"]);
   ("torch.onnx.export", ["model"; "f"]);
   ("torch.optim.lr_scheduler.OneCycleLR", ["optimizer"; "max_lr"]);
   ("torch.signal.windows.general_cosine", ["M"; "a"]);
   ("torch.svd", ["input"]);
   ("torchvision.io.decode_jpeg", ["input"])].
Definition required (r : row) : list string :=
  match dget String.eqb (r_name r) mandatory with
  | Some l => l
  | None =>
      match overload_args_list (r_entry r) with
      | [] => firstn (min_input_args (r_entry r)) (position_args (r_entry r))
      | _ => []
      end
  end.
Definition complete (r : row) (args : list expr) (kwargs : list kwnode) : Prop :=
  forall k, In k (required r) -> exists v, supplies (r_entry r) args kwargs k v.

(** [torch.hsplit] and its relatives take "indices" or "sections". *)
Definition unambiguous (r : row) (args : list expr) (kwargs : list kwnode) : Prop :=
  forall v w, supplies (r_entry r) args kwargs "indices" v ->
              supplies (r_entry r) args kwargs "sections" w -> ~ In "sections" (overload_args_list (r_entry r)).

(** A regular call. *)
Definition regular (r : row) (recv : option string) (args : list expr) (kwargs : list kwnode) : Prop :=
  called_properly r recv /\ documented (r_entry r) kwargs /\ complete r args kwargs /\ unambiguous r args kwargs.

(** Parameters that the table itself maps to nothing ("kwargs_change": {"k": ""}). *)
Definition declared_unused (e : entry) (k : string) : Prop :=
  dget String.eqb k (kwargs_change e) = Some (TName "") \/ dget String.eqb k (kwargs_change e) = Some TNone.

(** [k] is listed for the row in a table of exceptions. *)
Definition listed (l : list (string * list string)) (r : row) (k : string) : Prop :=
  exists ks, In (r_name r, ks) l /\ In k ks.

(** How often the text of [s] was copied into the code. *)
Definition source_eq_dec (a b : source) : {a = b} + {a <> b}.
Proof. decide equality. apply string_dec. Defined.
Definition copies (s : source) (q : rope) : nat := count_occ source_eq_dec (origins q) s.

(** Exceptions to "every argument appears in the code".  The value of these arguments
    has no influence on the code at all. *)
Definition ignored : list (string * list string) :=
  [("os.environ.get", ["value"]);
   ("torch.Tensor.type", ["non_blocking"; "**kwargs"]);
   ("torch.frombuffer", ["count"; "offset"; "requires_grad"]);
   ("torch.linalg.cholesky_ex", ["check_errors"]);
   ("torch.linalg.inv_ex", ["check_errors"]);
   ("torch.nn.AlphaDropout", ["inplace"]);
   ("torch.nn.CELU", ["inplace"]);
   ("torch.nn.Dropout1d", ["inplace"]);
   ("torch.nn.Dropout2d", ["inplace"]);
   ("torch.nn.Dropout3d", ["inplace"]);
   ("torch.nn.FeatureAlphaDropout", ["inplace"]);
   ("torch.nn.Hardsigmoid", ["inplace"]);
   ("torch.nn.Hardtanh", ["inplace"]);
   ("torch.nn.Mish", ["inplace"]);
   ("torch.nn.RNNBase", ["device"]);
   ("torch.nn.RReLU", ["inplace"]);
   ("torch.nn.SELU", ["inplace"]);
   ("torch.nn.functional.alpha_dropout", ["inplace"]);
   ("torch.nn.functional.celu", ["inplace"]);
   ("torch.nn.functional.dropout2d", ["inplace"]);
   ("torch.nn.functional.dropout3d", ["inplace"]);
   ("torch.nn.functional.fractional_max_pool2d", ["output_size"]);
   ("torch.nn.functional.fractional_max_pool3d", ["output_size"]);
   ("torch.nn.functional.hardsigmoid", ["inplace"]);
   ("torch.nn.functional.hardtanh", ["inplace"]);
   ("torch.nn.functional.rrelu", ["inplace"]);
   ("torch.nn.functional.selu", ["inplace"]);
   ("torch.nn.functional.threshold", ["inplace"]);
   ("torch.onnx.export", ["opset_version"]);
   ("torch.scalar_tensor", ["layout"]);
   ("torch.signal.windows.blackman", ["layout"; "device"]);
   ("torch.signal.windows.cosine", ["layout"; "device"]);
   ("torch.signal.windows.exponential", ["layout"; "device"]);
   ("torch.signal.windows.gaussian", ["layout"; "device"]);
   ("torch.signal.windows.general_cosine", ["layout"; "device"]);
   ("torch.signal.windows.general_hamming", ["layout"; "device"]);
   ("torch.signal.windows.hamming", ["layout"; "device"]);
   ("torch.signal.windows.hann", ["layout"; "device"]);
   ("torch.utils.data.SubsetRandomSampler", ["generator"]);
   ("torch.utils.data.WeightedRandomSampler", ["generator"]);
   ("torchvision.models.vgg11", ["pretrained"]);
   ("torchvision.models.vgg11_bn", ["pretrained"]);
   ("torchvision.models.vgg13", ["pretrained"]);
   ("torchvision.models.vgg13_bn", ["pretrained"]);
   ("torchvision.models.vgg16", ["pretrained"]);
   ("torchvision.models.vgg16_bn", ["pretrained"]);
   ("torchvision.models.vgg19", ["pretrained"]);
   ("torchvision.models.vgg19_bn", ["pretrained"]);
   ("torchvision.transforms.Normalize", ["inplace"]);
   ("torchvision.transforms.RandomErasing", ["inplace"]);
   ("torchvision.transforms.functional.normalize", ["inplace"])].
(** These are compared with some fixed texts, which select the code. *)
Definition inspected : list (string * list string) :=
  [("os.environ.get", ["key"]);
   ("torch.Tensor.qr", ["some"]);
   ("torch.index_copy", ["dim"]);
   ("torch.nn.LSTM", ["bidirectional"]);
   ("torch.nn.RNN", ["bidirectional"]);
   ("torch.nn.RNNBase", ["bidirectional"]);
   ("torch.optim.lr_scheduler.OneCycleLR", ["total_steps"]);
   ("torch.scalar_tensor", ["pin_memory"]);
   ("torch.set_printoptions", ["profile"]);
   ("torch.stft", ["return_complex"]);
   ("torchvision.datasets.CIFAR10", ["train"]);
   ("torchvision.datasets.CIFAR100", ["train"]);
   ("torchvision.datasets.FashionMNIST", ["train"]);
   ("torchvision.datasets.Flowers102", ["split"]);
   ("torchvision.datasets.MNIST", ["train"]);
   ("torchvision.models.vgg11", ["weights"]);
   ("torchvision.models.vgg11_bn", ["weights"]);
   ("torchvision.models.vgg13", ["weights"]);
   ("torchvision.models.vgg13_bn", ["weights"]);
   ("torchvision.models.vgg16", ["weights"]);
   ("torchvision.models.vgg16_bn", ["weights"]);
   ("torchvision.models.vgg19", ["weights"]);
   ("torchvision.models.vgg19_bn", ["weights"])].
(** The text of these is changed: parentheses are stripped, "cuda" becomes "gpu", ... *)
Definition reworked : list (string * list string) :=
  [("torch.Tensor.svd", ["some"]);
   ("torch.cpu.set_device", ["device"]);
   ("torch.scalar_tensor", ["requires_grad"]);
   ("torch.signal.windows.blackman", ["requires_grad"]);
   ("torch.signal.windows.cosine", ["requires_grad"]);
   ("torch.signal.windows.exponential", ["requires_grad"]);
   ("torch.signal.windows.gaussian", ["requires_grad"]);
   ("torch.signal.windows.general_cosine", ["requires_grad"]);
   ("torch.signal.windows.general_hamming", ["requires_grad"]);
   ("torch.signal.windows.hamming", ["requires_grad"]);
   ("torch.signal.windows.hann", ["requires_grad"]);
   ("torch.sparse_coo_tensor", ["requires_grad"]);
   ("torch.sparse_csr_tensor", ["requires_grad"]);
   ("torch.svd", ["some"]);
   ("torchvision.datasets.CIFAR10", ["train"]);
   ("torchvision.datasets.CIFAR100", ["train"])].
Definition lost : list (string * list string) := (ignored ++ inspected ++ reworked)%list.

(** Exceptions to "every argument is evaluated at most once": its text is written more
    than once. *)
Definition repeated : list (string * list string) :=
  [("fairscale.nn.model_parallel.initialize.initialize_model_parallel", ["pipeline_length"]);
   ("flash_attn.flash_attn_interface.flash_attn_unpadded_func", ["q"]);
   ("flash_attn.ops.rms_norm.rms_norm", ["x"; "weight"]);
   ("torch.Tensor.histogram", ["bins"; "range"]);
   ("torch.Tensor.narrow_copy", ["dim"; "start"]);
   ("torch.Tensor.select", ["dim"]);
   ("torch.Tensor.set_", ["source"]);
   ("torch.Tensor.sort", ["stable"; "dim"; "descending"]);
   ("torch.Tensor.triangular_solve", ["A"]);
   ("torch.adjoint", ["input"]);
   ("torch.autograd.Variable", ["data"]);
   ("torch.histogram", ["input"; "bins"; "range"; "out"]);
   ("torch.index_copy", ["input"; "dim"]);
   ("torch.linalg.cholesky_ex", ["input"; "out"]);
   ("torch.linalg.eig", ["out"]);
   ("torch.linalg.inv_ex", ["A"; "out"]);
   ("torch.linalg.lu", ["out"]);
   ("torch.linalg.lu_factor", ["out"]);
   ("torch.linalg.lu_factor_ex", ["out"]);
   ("torch.linalg.slogdet", ["out"]);
   ("torch.linalg.svd", ["out"]);
   ("torch.lu", ["out"]);
   ("torch.lu_unpack", ["out"]);
   ("torch.narrow_copy", ["input"; "dim"; "start"]);
   ("torch.nn.GRUCell", ["bias"]);
   ("torch.nn.InstanceNorm1d", ["affine"]);
   ("torch.nn.InstanceNorm2d", ["affine"]);
   ("torch.nn.InstanceNorm3d", ["affine"]);
   ("torch.nn.LSTM", ["bias"]);
   ("torch.nn.LSTMCell", ["bias"]);
   ("torch.nn.RNN", ["bias"]);
   ("torch.nn.RNNBase", ["bias"]);
   ("torch.nn.RNNCell", ["bias"]);
   ("torch.nn.SyncBatchNorm", ["affine"]);
   ("torch.nn.functional.fractional_max_pool2d", ["input"; "output_ratio"]);
   ("torch.nn.functional.fractional_max_pool3d", ["input"; "output_ratio"]);
   ("torch.nn.functional.softmin", ["input"]);
   ("torch.nn.modules.batchnorm._BatchNorm", ["affine"]);
   ("torch.optim.Adam", ["betas"]);
   ("torch.optim.Adamax", ["betas"]);
   ("torch.optim.NAdam", ["betas"]);
   ("torch.optim.RAdam", ["betas"]);
   ("torch.optim.lr_scheduler.ConstantLR", ["optimizer"]);
   ("torch.optim.lr_scheduler.LinearLR", ["optimizer"]);
   ("torch.optim.lr_scheduler.MultiplicativeLR", ["optimizer"]);
   ("torch.optim.lr_scheduler.OneCycleLR", ["max_lr"; "div_factor"]);
   ("torch.select", ["dim"]);
   ("torch.slogdet", ["out"]);
   ("torch.special.erfcx", ["input"]);
   ("torch.std_mean", ["input"; "dim"; "keepdim"]);
   ("torch.svd", ["out"]);
   ("torch.triangular_solve", ["A"; "out"]);
   ("torch.var_mean", ["input"; "dim"; "keepdim"]);
   ("torchvision.datasets.FashionMNIST", ["root"; "train"]);
   ("torchvision.datasets.Flowers102", ["root"; "split"]);
   ("torchvision.datasets.MNIST", ["root"; "train"])].
(** Methods whose receiver is written more than once. *)
Definition receiver_repeated : list string :=
  ["torch.Tensor.addbmm_";
   "torch.Tensor.adjoint";
   "torch.Tensor.eq_";
   "torch.Tensor.ge_";
   "torch.Tensor.gt_";
   "torch.Tensor.histc";
   "torch.Tensor.histogram";
   "torch.Tensor.le_";
   "torch.Tensor.logical_and_";
   "torch.Tensor.logical_not_";
   "torch.Tensor.logical_or_";
   "torch.Tensor.logical_xor_";
   "torch.Tensor.lt_";
   "torch.Tensor.narrow_copy";
   "torch.Tensor.ne_";
   "torch.Tensor.sort";
   "torch.Tensor.to_sparse_coo"].

(** The call gives [k]. *)
Definition gives (r : row) (args : list expr) (kwargs : list kwnode) (k : string) : Prop :=
  exists v, supplies (r_entry r) args kwargs k v.
(** Calls that are not handled: the matcher raises [KeyError]. *)
Definition fragile (r : row) (args : list expr) (kwargs : list kwnode) : Prop :=
  (r_name r = "torch.Tensor.type" /\ ~ gives r args kwargs "dtype" /\ exists k, gives r args kwargs k) \/
  (r_name r = "torch.optim.lr_scheduler.OneCycleLR" /\
   gives r args kwargs "final_div_factor" /\ ~ gives r args kwargs "div_factor") \/
  (r_name r = "torch.optim.lr_scheduler.OneCycleLR" /\
   (forall v, supplies (r_entry r) args kwargs "total_steps" v -> contains "None" v = true) /\
   ~ (gives r args kwargs "steps_per_epoch" /\ gives r args kwargs "epochs")).

(** [v] is a part of [c]. *)
Definition inside (v c : string) : Prop := exists x y, c = x ++ v ++ y.

(** A character that no program contains, put into an argument to follow its text. *)
Definition mark : ascii := "001".
Fixpoint marks (s : string) : nat :=
  match s with
  | EmptyString => 0
  | String c r => (if Ascii.eqb c mark then 1 else 0) + marks r
  end.
(** Only the text of [s] is marked, and only once. *)
Definition marked (s : source) (e : entry) (recv : option string) (args : list expr) (kwargs : list kwnode) : Prop :=
  (forall k v, In (Some k, v) (bindings (position_args e) args kwargs) ->
     (marks v <= if source_eq_dec s (Argument k) then 1 else 0)%nat) /\
  (forall v, recv = Some v -> (marks v <= if source_eq_dec s Receiver then 1 else 0)%nat).
