(** A part of Python's grammar, on texts: the statements and expressions that occur in
    generated code.  Every rule is an instance of a rule of the Python reference
    (section "Full Grammar specification"), with the white space written out.  The
    texts in [operand] may stand wherever a primary expression (name, call, attribute,
    subscript, parenthesised expression, ...) may stand, those in [expression] only where
    any expression may stand (an element of a list of arguments, right of "=", in
    parentheses, ...): nothing outside can bind to a part of them.  Specification only. *)
From Verif Require Import PyStr PyDict Args ArgsSpec TablesData Generate GenerateSpec UtilsFile.

Definition newline : string := String nl "".
(** White space: [gap true] inside brackets, where lines may be broken. *)
Definition space (breaks : bool) (c : ascii) : bool := Ascii.eqb c " " || breaks && Ascii.eqb c nl.
Definition gap (breaks : bool) (s : string) : Prop := all_chars (space breaks) s = true.

Definition word_start (c : ascii) : bool :=
  in_range 65 90 c || in_range 97 122 c || Ascii.eqb c "_".
Definition word_char (c : ascii) : bool := word_start c || in_range 48 57 c.
Definition keywords_of_python : list string :=
  ["and"; "as"; "assert"; "async"; "await"; "break"; "class"; "continue"; "def"; "del"; "elif";
   "else"; "except"; "finally"; "for"; "from"; "global"; "if"; "import"; "in"; "is"; "lambda";
   "nonlocal"; "not"; "or"; "pass"; "raise"; "return"; "try"; "while"; "with"; "yield"].
Definition constants_of_python : list string := ["True"; "False"; "None"].
(** A name that is not a keyword; a name that can be assigned. *)
Definition wordb (s : string) : bool :=
  match s with String c r => word_start c && all_chars word_char r | "" => false end.
Definition name (s : string) : Prop := wordb s = true /\ ~ In s keywords_of_python.
Definition variable (s : string) : Prop := name s /\ ~ In s constants_of_python.

Definition digits (s : string) : Prop := all_chars (in_range 48 57) s = true.
Definition number (s : string) : Prop :=
  exists d f e, s = d ++ f ++ e /\ d <> "" /\ digits d /\
    (f = "" \/ exists g, f = "." ++ g /\ digits g) /\
    (e = "" \/ exists g, g <> "" /\ digits g /\ (e = "e" ++ g \/ e = "e-" ++ g)).
(** A string literal without escapes and prefix. *)
Definition string_literal (s : string) : Prop :=
  exists q b, In q ["'"; """"] /\ s = q ++ b ++ q /\
    all_chars (fun c => negb (mem_char c (q ++ "\" ++ newline))) b = true.

Definition operators : list string := ["+"; "-"; "*"; "/"; "**"].
Definition comparators : list string := ["<"; ">="; "!="].
Definition word_comparators : list string := [" in "; " not in "; " is not "].

Section Grammar.
  Variables operand expression : string -> Prop.

  Inductive primary : string -> Prop :=
  | p_operand v : operand v -> primary v
  | p_name w : name w -> primary w
  | p_string s : string_literal s -> primary s
  | p_attribute a x w : primary a -> gap false x -> name w -> primary (a ++ "." ++ x ++ w)
  | p_call f x l y : primary f -> gap true x -> arguments l -> gap true y -> primary (f ++ "(" ++ x ++ l ++ y ++ ")")
  | p_item a l : primary a -> subscript l -> primary (a ++ "[" ++ l ++ "]")
  | p_group x l y : gap true x -> tests true l -> gap true y -> primary ("(" ++ x ++ l ++ y ++ ")")
  | p_empty_list : primary "[]"
  | p_list x l y : gap true x -> tests true l -> gap true y -> primary ("[" ++ x ++ l ++ y ++ "]")
  | p_comprehension a w b : test a -> variable w -> arith b -> primary ("[" ++ a ++ " for " ++ w ++ " in " ++ b ++ "]")
  (** Operators, without their precedence. *)
  with arith : string -> Prop :=
  | a_primary t : primary t -> arith t
  | a_number t : number t -> arith t
  | a_minus x t : gap false x -> arith t -> arith ("-" ++ x ++ t)
  | a_binary a x o y b : arith a -> gap false x -> In o operators -> gap false y -> arith b ->
      arith (a ++ x ++ o ++ y ++ b)
  with condition : string -> Prop :=
  | c_arith t : arith t -> condition t
  | c_compare a x o y b : condition a -> gap false x -> In o comparators -> gap false y -> arith b ->
      condition (a ++ x ++ o ++ y ++ b)
  | c_compare_word a o b : condition a -> In o word_comparators -> arith b -> condition (a ++ o ++ b)
  with negation : string -> Prop :=
  | n_condition t : condition t -> negation t
  | n_not t : negation t -> negation ("not " ++ t)
  with test : string -> Prop :=
  | t_given v : expression v -> test v
  | t_negation t : negation t -> test t
  | t_choice a c b : negation a -> negation c -> test b -> test (a ++ " if " ++ c ++ " else " ++ b)
  (** One or more expressions between commas; [breaks]: inside brackets. *)
  with tests : bool -> string -> Prop :=
  | l_one breaks t : test t -> tests breaks t
  | l_more breaks a x y b : tests breaks a -> gap breaks x -> gap breaks y -> test b ->
      tests breaks (a ++ x ++ "," ++ y ++ b)
  with subscript : string -> Prop :=
  | s_index t : test t -> subscript t
  | s_all : subscript ":"
  | s_to b : arith b -> subscript (":" ++ b)
  | s_from a : arith a -> subscript (a ++ ":")
  | s_range a b : arith a -> arith b -> subscript (a ++ ":" ++ b)
  (** Positional arguments first; no keyword twice. *)
  with arguments : string -> Prop :=
  | r_none : arguments ""
  | r_positional l : tests true l -> arguments l
  | r_trailing_comma l x : tests true l -> gap true x -> arguments (l ++ x ++ ",")
  | r_keywords ks l : keywords ks l -> NoDup ks -> arguments l
  | r_both a x y ks l : tests true a -> gap true x -> gap true y -> keywords ks l -> NoDup ks ->
      arguments (a ++ x ++ "," ++ y ++ l)
  with keywords : list string -> string -> Prop :=
  | k_one k t : variable k -> test t -> keywords [k] (k ++ "=" ++ t)
  | k_more ks a x y k t : keywords ks a -> gap true x -> gap true y -> variable k -> test t ->
      keywords (k :: ks) (a ++ x ++ "," ++ y ++ k ++ "=" ++ t).

  (** What stands left of "=", with the variables it binds. *)
  Inductive target : list string -> string -> Prop :=
  | t_variable w : variable w -> target [w] w
  | t_attribute a x w : primary a -> gap false x -> name w -> target [] (a ++ "." ++ x ++ w)
  | t_item a l : primary a -> subscript l -> target [] (a ++ "[" ++ l ++ "]").
  Inductive targets : list string -> string -> Prop :=
  | ts_one ns t : target ns t -> targets ns t
  | ts_more ns a x y ms b : targets ns a -> gap false x -> gap false y -> target ms b ->
      targets (ns ++ ms) (a ++ x ++ "," ++ y ++ b).

  (** Statements on one line, with the variables they bind. *)
  Inductive simple : list string -> string -> Prop :=
  | s_assign ns t x y e : targets ns t -> gap false x -> gap false y -> tests false e -> simple ns (t ++ x ++ "=" ++ y ++ e)
  | s_value e : tests false e -> simple [] e
  | s_assert c x m : test c -> gap false x -> test m -> simple [] ("assert " ++ c ++ "," ++ x ++ m)
  | s_import m : variable m -> simple [m] ("import " ++ m)
  | s_import_as m n : variable m -> variable n -> simple [n] ("import " ++ m ++ " as " ++ n).
  Inductive statement : list string -> string -> Prop :=
  | s_simple ns s : simple ns s -> statement ns s
  | s_if c ns s : test c -> simple ns s -> statement ns ("if " ++ c ++ ":" ++ newline ++ "    " ++ s)
  | s_for w e ns s : variable w -> test e -> simple ns s ->
      statement (w :: ns) ("for " ++ w ++ " in " ++ e ++ ":" ++ newline ++ "    " ++ s).
  (** Statements, one per line, the last one an expression: its value is what the
      converted call is replaced by. *)
  Inductive program : list string -> string -> Prop :=
  | g_value t : tests false t -> program [] t
  | g_end ns t : program ns t -> program ns (t ++ newline)
  | g_blank ns t : program ns t -> program ns (newline ++ t)
  | g_statement ns s ms t : statement ns s -> program ms t -> program (ns ++ ms) (s ++ newline ++ t).
End Grammar.

(** ** Exceptions *)
(** Arguments that are joined to other text: operators, attributes, subscripts.  They
    must be operands. *)
Definition tight : list (string * list string) :=
  [("fairscale.nn.model_parallel.initialize.initialize_model_parallel", ["pipeline_length"]);
   ("flash_attn.flash_attn_interface.flash_attn_unpadded_func", ["q"]);
   ("flash_attn.ops.rms_norm.rms_norm", ["x"]);
   ("torch.Tensor.addbmm", ["beta"; "alpha"]);
   ("torch.Tensor.addbmm_", ["alpha"]);
   ("torch.Tensor.addcmul", ["tensor1"; "tensor2"; "value"]);
   ("torch.Tensor.addcmul_", ["tensor1"; "tensor2"; "value"]);
   ("torch.Tensor.addmv", ["beta"; "alpha"]);
   ("torch.Tensor.addr", ["beta"; "alpha"]);
   ("torch.Tensor.histogram", ["range"]);
   ("torch.Tensor.logaddexp2", ["other"]);
   ("torch.Tensor.narrow_copy", ["start"; "length"]);
   ("torch.Tensor.set_", ["source"; "storage_offset"]);
   ("torch.addbmm", ["input"; "beta"; "alpha"]);
   ("torch.addcdiv", ["input"; "tensor1"; "tensor2"; "value"]);
   ("torch.addcmul", ["input"; "tensor1"; "tensor2"; "value"]);
   ("torch.adjoint", ["input"]);
   ("torch.autograd.Variable", ["data"; "requires_grad"]);
   ("torch.detach", ["input"]);
   ("torch.distributed.Backend", ["name"]);
   ("torch.distributed.all_gather", ["async_op"]);
   ("torch.distributed.all_gather_into_tensor", ["async_op"]);
   ("torch.distributed.all_reduce", ["async_op"]);
   ("torch.distributed.all_to_all_single", ["async_op"]);
   ("torch.distributed.broadcast", ["async_op"]);
   ("torch.distributed.gather", ["async_op"]);
   ("torch.distributed.reduce", ["async_op"]);
   ("torch.distributed.reduce_scatter", ["async_op"]);
   ("torch.distributed.scatter", ["async_op"]);
   ("torch.float_power", ["input"]);
   ("torch.histogram", ["input"; "range"; "out"]);
   ("torch.is_inference", ["input"]);
   ("torch.is_nonzero", ["input"]);
   ("torch.jit.save", ["f"]);
   ("torch.linalg.cholesky_ex", ["input"; "out"]);
   ("torch.linalg.eig", ["out"]);
   ("torch.linalg.inv_ex", ["A"; "out"]);
   ("torch.linalg.lu", ["out"]);
   ("torch.linalg.lu_factor", ["out"]);
   ("torch.linalg.lu_factor_ex", ["out"]);
   ("torch.linalg.slogdet", ["out"]);
   ("torch.linalg.solve_triangular", ["left"]);
   ("torch.linalg.svd", ["out"]);
   ("torch.logaddexp2", ["input"; "other"]);
   ("torch.lu", ["out"]);
   ("torch.lu_unpack", ["out"]);
   ("torch.narrow_copy", ["input"; "start"; "length"]);
   ("torch.nn.InstanceNorm1d", ["momentum"]);
   ("torch.nn.InstanceNorm2d", ["momentum"]);
   ("torch.nn.InstanceNorm3d", ["momentum"]);
   ("torch.nn.LSTM", ["batch_first"]);
   ("torch.nn.RNN", ["batch_first"]);
   ("torch.nn.RNNBase", ["batch_first"]);
   ("torch.nn.SyncBatchNorm", ["momentum"]);
   ("torch.nn.functional.avg_pool1d", ["count_include_pad"]);
   ("torch.nn.functional.avg_pool2d", ["count_include_pad"]);
   ("torch.nn.functional.avg_pool3d", ["count_include_pad"]);
   ("torch.nn.functional.bilinear", ["bias"]);
   ("torch.nn.functional.fractional_max_pool2d", ["output_ratio"]);
   ("torch.nn.functional.fractional_max_pool3d", ["output_ratio"]);
   ("torch.nn.functional.softmin", ["input"]);
   ("torch.nn.modules.batchnorm._BatchNorm", ["momentum"]);
   ("torch.numel", ["input"]);
   ("torch.optim.Adam", ["betas"]);
   ("torch.optim.Adamax", ["betas"]);
   ("torch.optim.NAdam", ["betas"]);
   ("torch.optim.Optimizer.zero_grad", ["set_to_none"]);
   ("torch.optim.RAdam", ["betas"]);
   ("torch.optim.lr_scheduler.ConstantLR", ["optimizer"; "factor"]);
   ("torch.optim.lr_scheduler.CyclicLR", ["optimizer"]);
   ("torch.optim.lr_scheduler.LinearLR", ["optimizer"]);
   ("torch.optim.lr_scheduler.MultiplicativeLR", ["optimizer"]);
   ("torch.optim.lr_scheduler.OneCycleLR", ["optimizer"; "final_div_factor"]);
   ("torch.signal.windows.blackman", ["sym"]);
   ("torch.signal.windows.cosine", ["sym"]);
   ("torch.signal.windows.exponential", ["sym"]);
   ("torch.signal.windows.gaussian", ["sym"]);
   ("torch.signal.windows.general_cosine", ["sym"]);
   ("torch.signal.windows.general_hamming", ["sym"]);
   ("torch.signal.windows.hamming", ["sym"]);
   ("torch.signal.windows.hann", ["sym"]);
   ("torch.slogdet", ["out"]);
   ("torch.special.erfcx", ["input"]);
   ("torch.special.exp2", ["input"]);
   ("torch.special.ndtr", ["input"]);
   ("torch.special.ndtri", ["input"]);
   ("torch.special.xlog1py", ["input"]);
   ("torch.special.xlogy", ["input"]);
   ("torch.svd", ["out"]);
   ("torch.triangular_solve", ["out"]);
   ("torchvision.datasets.CIFAR10", ["train"]);
   ("torchvision.datasets.CIFAR100", ["train"]);
   ("torchvision.datasets.FashionMNIST", ["train"]);
   ("torchvision.datasets.Flowers102", ["split"]);
   ("torchvision.datasets.MNIST", ["train"])].
(** Arguments whose outer parentheses are removed, also where they do not match:
    [f(x)] becomes [f(x]. *)
Definition stripped : list (string * list string) :=
  [("torch.Tensor.svd", ["some"]);
   ("torch.scalar_tensor", ["requires_grad"]);
   ("torch.signal.windows.blackman", ["requires_grad"]);
   ("torch.signal.windows.cosine", ["requires_grad"]);
   ("torch.signal.windows.exponential", ["requires_grad"]);
   ("torch.signal.windows.gaussian", ["requires_grad"]);
   ("torch.signal.windows.general_cosine", ["requires_grad"]);
   ("torch.signal.windows.general_hamming", ["requires_grad"]);
   ("torch.signal.windows.hamming", ["requires_grad"]);
   ("torch.signal.windows.hann", ["requires_grad"]);
   ("torch.sparse_coo_tensor", ["requires_grad"]);
   ("torch.sparse_csr_tensor", ["requires_grad"]);
   ("torch.svd", ["some"])].
(** "cuda" is replaced inside the first one; code is assigned to the second one. *)
Definition mistreated : list (string * list string) :=
  [("torch.cpu.set_device", ["device"]); ("torch.index_copy", ["input"])].
(** Rows whose code binds names that may be in use already. *)
Definition clobbered : list (string * list string) :=
  [("flash_attn.flash_attn_interface.flash_attn_unpadded_func", ["math"]);
   ("torch.Tensor.eq_", ["_x_dtype_"]);
   ("torch.Tensor.ge_", ["_x_dtype_"]);
   ("torch.Tensor.gt_", ["_x_dtype_"]);
   ("torch.Tensor.le_", ["_x_dtype_"]);
   ("torch.Tensor.logical_and_", ["_x_dtype_"]);
   ("torch.Tensor.logical_not_", ["_x_dtype_"]);
   ("torch.Tensor.logical_or_", ["_x_dtype_"]);
   ("torch.Tensor.logical_xor_", ["_x_dtype_"]);
   ("torch.Tensor.lt_", ["_x_dtype_"]);
   ("torch.Tensor.ne_", ["_x_dtype_"]);
   ("torch.Tensor.slogdet", ["res"]);
   ("torch.Tensor.svd", ["tmp_s"; "tmp_u"; "tmp_v"]);
   ("torch.frombuffer", ["buffer"; "dtype"; "np"]);
   ("torch.get_num_interop_threads", ["os"]);
   ("torch.get_num_threads", ["os"]);
   ("torch.histogram", ["out1"; "out2"]);
   ("torch.linalg.cholesky_ex", ["out1"; "out2"]);
   ("torch.linalg.eig", ["out1"; "out2"]);
   ("torch.linalg.inv_ex", ["out1"; "out2"]);
   ("torch.linalg.lu", ["L"; "P"; "U"; "tmp_lu"; "tmp_p"]);
   ("torch.linalg.lu_factor", ["out1"; "out2"]);
   ("torch.linalg.lu_factor_ex", ["out1"; "out2"; "out3"]);
   ("torch.linalg.slogdet", ["res"]);
   ("torch.linalg.svd", ["out1"; "out2"; "out3"]);
   ("torch.lu", ["tmp_info"; "tmp_lu"; "tmp_p"]);
   ("torch.lu_unpack", ["out1"; "out2"; "out3"]);
   ("torch.multiprocessing.cpu_count", ["os"]);
   ("torch.optim.lr_scheduler.ConstantLR", ["tmp_lr"]);
   ("torch.optim.lr_scheduler.CyclicLR", ["tmp_lr"]);
   ("torch.optim.lr_scheduler.LinearLR", ["tmp_lr"]);
   ("torch.optim.lr_scheduler.MultiplicativeLR", ["tmp_lr"]);
   ("torch.optim.lr_scheduler.OneCycleLR", ["tmp_lr"]);
   ("torch.slogdet", ["res"]);
   ("torch.svd", ["tmp_s"; "tmp_u"; "tmp_v"]);
   ("torchvision.datasets.CIFAR10", ["os"]);
   ("torchvision.datasets.CIFAR100", ["os"]);
   ("torchvision.datasets.FashionMNIST", ["os"]);
   ("torchvision.datasets.Flowers102", ["os"]);
   ("torchvision.datasets.MNIST", ["os"]);
   ("transformers.logging.get_logger", ["logging"])].

(** A receiver is copied unchanged only if it has no backslash and no line break. *)
Definition undisturbed (s : string) : Prop := all_chars (fun c => negb (Ascii.eqb c "\" || Ascii.eqb c nl)) s = true.

(** A call whose arguments are expressions: operands where the table [tight] asks for
    it, none of them in the tables of mishandled arguments. *)
Definition well_written (operand expression : string -> Prop) (r : row)
    (recv : option string) (args : list expr) (kwargs : list kwnode) : Prop :=
  (forall k v, In (Some k, v) (bindings (position_args (r_entry r)) args kwargs) ->
     variable k /\ py_strip v = v /\ expression v /\ (listed tight r k -> operand v) /\
     ~ listed stripped r k /\ ~ listed mistreated r k) /\
  (forall v, recv = Some v -> operand v /\ undisturbed v).

(** ** For the witnesses of the exceptions *)
(** Parentheses outside string literals match. *)
Fixpoint closes (inside : option ascii) (depth : nat) (s : string) : bool :=
  match s with
  | EmptyString => match inside with None => Nat.eqb depth 0 | Some _ => false end
  | String c r =>
      match inside with
      | Some q => closes (if Ascii.eqb c q then None else Some q) depth r
      | None =>
          if Ascii.eqb c quote1 || Ascii.eqb c quote2 then closes (Some c) depth r
          else if Ascii.eqb c "(" then closes None (S depth) r
          else if Ascii.eqb c ")" then match depth with O => false | S d => closes None d r end
          else closes None depth r
      end
  end.
Definition balanced (s : string) : Prop := closes None 0 s = true.
(** An operator, an attribute or a subscript stands directly before or after [v] in [c]. *)
Definition before : list string := ["+"; "-"; "*"; "/"; "+ "; "- "; "* "; "/ "; "** "; "not "; " if "; "< "; "!= "; " in "; "is not "].
Definition after : list string := ["."; "["; " +"; " -"; " *"; " /"; "+"; "-"; "*"; "/"; " if "; " else "; " <"; " >="; " !="; " in "; " not in "; " is not "].
Definition adjoined (v c : string) : Prop :=
  exists x y, c = x ++ v ++ y /\
    ((exists p x', In p before /\ x = x' ++ p) \/ (exists p y', In p after /\ y = p ++ y')).
(** A line of [c] assigns [n] (possibly among others) or imports it. *)
Definition assigns (n c : string) : Prop :=
  exists l, In l (splitlines c) /\
    ((exists a b, py_strip l = a ++ " = " ++ b /\ In n (map py_strip (split_on "," a))) \/
     py_strip l = "import " ++ n \/ exists m, py_strip l = "import " ++ m ++ " as " ++ n).
