(** What a generated expression means: how it is read (with the precedence of operators)
    and what it computes, given what the paddle functions in it compute.  Specification
    only.

    Sources: the Python reference, section "Expressions", and the paddle documentation of
    the functions in [library] and [methods].  Values are abstract ([algebra]): tensors,
    numbers and flags alike; dtype, shape and broadcasting are not represented. *)
From Coq Require Import QArith.
From Verif Require Import PyStr PyDict UtilsFile Args ArgsSpec TablesData Generate GenerateSpec Grammar.
Close Scope Q_scope.
Open Scope string_scope.

(** ** Expressions *)
Inductive pexp :=
| Given (v : string)                      (** a text that the call contains *)
| Word (w : string)
| Number (s : string)
| Quoted (s : string)
| Minus (a : pexp)
| Not (a : pexp)
| Binary (o : string) (a b : pexp)
| Member (a : pexp) (x : string)
| Index (a i : pexp)
| Listed (l : list pexp)
| Apply (f : pexp) (args : list pexp) (kws : list (string * pexp)).

(** A number without exponent. *)
Definition decimal (s : string) : Prop :=
  exists d f, s = d ++ f /\ d <> "" /\ digits d /\ (f = "" \/ exists g, f = "." ++ g /\ digits g).

(** ** Reading
    [reads n s p]: [s] is an expression [p] of level [n]: 5 primary, 4 power, 3 sign,
    2 product, 1 sum, 0 any expression.  Sums and products associate to the left, powers
    bind tighter than a sign on their left.  Line breaks only inside brackets. *)
Section Reads.
  Variables operand expression : string -> Prop.
  Inductive reads : nat -> string -> pexp -> Prop :=
  | r_operand v : operand v -> reads 5 v (Given v)
  | r_expression v : expression v -> reads 0 v (Given v)
  | r_word w : name w -> reads 5 w (Word w)
  | r_number s : decimal s -> reads 5 s (Number s)
  | r_string s : string_literal s -> reads 5 s (Quoted s)
  | r_group x s y p : gap true x -> reads 0 s p -> gap true y -> reads 5 ("(" ++ x ++ s ++ y ++ ")") p
  | r_member s p w : reads 5 s p -> name w -> reads 5 (s ++ "." ++ w) (Member p w)
  | r_index s p t i : reads 5 s p -> reads 0 t i -> reads 5 (s ++ "[" ++ t ++ "]") (Index p i)
  | r_list x t ps : gap true x -> items t ps [] -> reads 5 ("[" ++ x ++ t ++ "]") (Listed ps)
  | r_call s f x t ps ks : reads 5 s f -> gap true x -> items t ps ks -> NoDup (map fst ks) ->
      reads 5 (s ++ "(" ++ x ++ t ++ ")") (Apply f ps ks)
  | r_power s a x y t b : reads 5 s a -> gap false x -> gap false y -> reads 3 t b ->
      reads 4 (s ++ x ++ "**" ++ y ++ t) (Binary "**" a b)
  | r_minus x s a : gap false x -> reads 3 s a -> reads 3 ("-" ++ x ++ s) (Minus a)
  | r_product o s a x y t b : In o ["*"; "/"] -> reads 2 s a -> gap false x -> gap false y -> reads 3 t b ->
      reads 2 (s ++ x ++ o ++ y ++ t) (Binary o a b)
  | r_sum o s a x y t b : In o ["+"; "-"] -> reads 1 s a -> gap false x -> gap false y -> reads 2 t b ->
      reads 1 (s ++ x ++ o ++ y ++ t) (Binary o a b)
  | r_not s a : reads 1 s a -> reads 0 ("not " ++ s) (Not a)
  | r_up n s p : reads (S n) s p -> reads n s p
  (** Arguments: positional ones first; a comma at the end is allowed. *)
  with items : string -> list pexp -> list (string * pexp) -> Prop :=
  | i_none : items "" [] []
  | i_last s p x : reads 0 s p -> gap true x -> items (s ++ x) [p] []
  | i_next s p x y t ps ks : reads 0 s p -> gap true x -> gap true y -> items t ps ks ->
      items (s ++ x ++ "," ++ y ++ t) (p :: ps) ks
  | i_last_keyword k s p x : variable k -> reads 0 s p -> gap true x -> items (k ++ "=" ++ s ++ x) [] [(k, p)]
  | i_next_keyword k s p x y t ks : variable k -> reads 0 s p -> gap true x -> gap true y -> items t [] ks ->
      items (k ++ "=" ++ s ++ x ++ "," ++ y ++ t) [] ((k, p) :: ks).
  (** A generated text: an expression, blank lines around it. *)
  Inductive reads_code : string -> pexp -> Prop :=
  | c_value s p : reads 0 s p -> reads_code s p
  | c_end s p : reads_code s p -> reads_code (s ++ newline) p
  | c_blank s p : reads_code s p -> reads_code (newline ++ s) p.
End Reads.

(** ** Values *)
Record algebra := MkAlgebra {
  V : Type;
  num : Q -> V;                            (** numbers *)
  word : string -> V;                      (** True, None, paddle.float64, ... *)
  quoted : string -> V;
  plus : V -> V -> V;
  sub : V -> V -> V;
  times : V -> V -> V;
  divide : V -> V -> V;
  power : V -> V -> V;
  minus : V -> V;
  negation : V -> V;                       (** not *)
  to_float : V -> V;                       (** Python's [float] *)
  bmm : V -> V -> V;                       (** batches of matrix products *)
  matmul : V -> V -> V;
  outer : V -> V -> V;
  sum_along : V -> V -> V;                 (** tensor, axis *)
  erf : V -> V;
  erfinv : V -> V;
  log : V -> V;
  log2 : V -> V;
  log1p : V -> V;
  exp : V -> V;
  sqrt : V -> V;
  det : V -> V;
  choose : V -> V -> V -> V;               (** condition, where true, where false *)
  softmax : V -> option V -> V;            (** tensor, axis *)
  pick : V -> V -> V -> V;                 (** tensor, axis, list of indices *)
  squeeze : V -> V -> V;                   (** tensor, axis *)
  bilinear : V -> V -> V -> option V -> V; (** inputs, weight, bias *)
  unsqueeze : V -> V -> V;
  member : V -> string -> V;
  item : V -> V -> V;
  listed : list V -> V;
  (** Functions and methods that are not described here; the order of keywords does not
      matter. *)
  other : string -> list V -> (string -> option V) -> V;
  other_ext : forall f ps ks ks', (forall k, ks k = ks' k) -> other f ps ks = other f ps ks'
}.

(** Decimal notation. *)
Fixpoint scan (n : Z) (d : positive) (fraction : bool) (s : string) : Q :=
  match s with
  | "" => Qred (n # d)
  | String c r =>
      if Ascii.eqb c "." then scan n d true r
      else scan (10 * n + (Z.of_nat (nat_of_ascii c) - 48)) (if fraction then 10 * d else d) fraction r
  end.
Definition number_value (s : string) : Q := scan 0 1 false s.

(** The dotted name of a function. *)
Fixpoint path (p : pexp) : option string :=
  match p with
  | Word w => Some w
  | Member a x => match path a with Some n => Some (n ++ "." ++ x) | None => None end
  | _ => None
  end.

Section Value.
  Variable W : algebra.
  Notation V := (V W).
  Notation keys := (string -> option V).

  (** What paddle documents for the functions used below. *)
  Definition library : list (string * (list V -> keys -> option V)) :=
    [("float", fun ps _ => match ps with [x] => Some (to_float W x) | _ => None end);
     ("paddle.add", fun ps _ => match ps with [x; y] => Some (plus W x y) | _ => None end);
     (* assign(x, output=None): a copy of x, stored in output if that is given *)
     ("paddle.assign", fun ps _ => match ps with x :: _ => Some x | _ => None end);
     ("paddle.to_tensor", fun ps _ => match ps with [x] => Some x | _ => None end);
     ("paddle.bmm", fun ps _ => match ps with [x; y] => Some (bmm W x y) | _ => None end);
     ("paddle.mm", fun ps _ => match ps with [x; y] => Some (matmul W x y) | _ => None end);
     ("paddle.outer", fun ps _ => match ps with [x; y] => Some (outer W x y) | _ => None end);
     ("paddle.sum", fun ps ks => match ps, ks "axis" with [x], Some a => Some (sum_along W x a) | _, _ => None end);
     ("paddle.erf", fun ps _ => match ps with [x] => Some (erf W x) | _ => None end);
     ("paddle.erf_", fun ps _ => match ps with [x] => Some (erf W x) | _ => None end);
     ("paddle.erfinv", fun ps _ => match ps with [x] => Some (erfinv W x) | _ => None end);
     ("paddle.log", fun ps _ => match ps with [x] => Some (log W x) | _ => None end);
     ("paddle.log2", fun ps _ => match ps with [x] => Some (log2 W x) | _ => None end);
     ("paddle.log1p", fun ps _ => match ps with [x] => Some (log1p W x) | _ => None end);
     ("paddle.exp", fun ps _ => match ps with [x] => Some (exp W x) | _ => None end);
     ("paddle.sqrt", fun ps _ => match ps with [x] => Some (sqrt W x) | _ => None end);
     ("paddle.linalg.det", fun ps _ => match ps with [x] => Some (det W x) | _ => None end);
     ("paddle.where", fun ps _ => match ps with [c; x; y] => Some (choose W c x y) | _ => None end);
     ("paddle.nn.functional.softmax", fun ps ks => match ps, ks "x" with [], Some x => Some (softmax W x (ks "axis")) | _, _ => None end);
     ("paddle.nn.functional.bilinear", fun ps ks =>
        match ps, ks "x1", ks "x2", ks "weight" with [], Some x, Some y, Some w => Some (bilinear W x y w (ks "bias")) | _, _, _, _ => None end);
     ("paddle.index_select", fun ps ks =>
        match ps, ks "index", ks "axis" with [x], Some i, Some a => Some (pick W x a i) | _, _, _ => None end)].
  Definition methods : list (string * (V -> list V -> keys -> option V)) :=
    [("add_", fun x ps _ => match ps with [y] => Some (plus W x y) | _ => None end);
     ("multiply_", fun x ps _ => match ps with [y] => Some (times W x y) | _ => None end);
     ("squeeze", fun x ps _ => match ps with [a] => Some (squeeze W x a) | _ => None end);
     ("unsqueeze", fun x ps _ => match ps with [a] => Some (unsqueeze W x a) | _ => None end)].
  Definition or_else (x : option V) (d : V) : V := match x with Some v => v | None => d end.
  Definition function (f : string) (ps : list V) (ks : keys) : V :=
    or_else (match dget String.eqb f library with Some g => g ps ks | None => None end) (other W f ps ks).
  Definition method (m : string) (x : V) (ps : list V) (ks : keys) : V :=
    or_else (match dget String.eqb m methods with Some g => g x ps ks | None => None end) (other W ("." ++ m) (x :: ps) ks).
  Definition operation (o : string) (x y : V) : V :=
    if String.eqb o "+" then plus W x y
    else if String.eqb o "-" then sub W x y
    else if String.eqb o "*" then times W x y
    else if String.eqb o "/" then divide W x y
    else power W x y.

  (** The values of the texts in the call. *)
  Variable rho : string -> V.
  Fixpoint value (p : pexp) : V :=
    match p with
    | Given v => rho v
    | Word w => word W w
    | Number s => num W (number_value s)
    | Quoted s => quoted W s
    | Minus a => minus W (value a)
    | Not a => negation W (value a)
    | Binary o a b => operation o (value a) (value b)
    | Member a x => match path p with Some n => word W n | None => member W (value a) x end
    | Index a i => item W (value a) (value i)
    | Listed l => listed W (map value l)
    | Apply f ps ks =>
        let ps := map value ps in
        let ks := map (fun kv => (fst kv, value (snd kv))) ks in
        let ks k := dget String.eqb k ks in
        match path f with
        | Some n => function n ps ks
        | None => match f with Member a m => method m (value a) ps ks | _ => other W "" (value f :: ps) ks end
        end
    end.

  (** ** Assignments to existing tensors
      Functions and methods whose name ends with one "_" change their first argument and
      return it; [paddle.assign] changes [output]. *)
  Fixpoint ends_with_underscore (s : string) : bool :=
    match s with "_" => true | "" => false | String _ r => ends_with_underscore r end.
  Fixpoint place (p : pexp) : option string :=
    match p with
    | Given v => Some v
    | Apply f ps _ =>
        match path f with
        | Some n => if ends_with_underscore n then match ps with x :: _ => place x | [] => None end else None
        | None => match f with Member a m => if ends_with_underscore m then place a else None | _ => None end
        end
    | _ => None
    end.
  Fixpoint stores (p : pexp) : list (option string * V) :=
    match p with
    | Given _ | Word _ | Number _ | Quoted _ => []
    | Minus a | Not a | Member a _ => stores a
    | Binary _ a b | Index a b => (stores a ++ stores b)%list
    | Listed l => flat_map stores l
    | Apply f ps ks =>
        (stores f ++ flat_map stores ps ++ flat_map (fun kv => stores (snd kv)) ks ++
         match path f with
         | Some n =>
             if ends_with_underscore n then [(match ps with x :: _ => place x | [] => None end, value p)]
             else if String.eqb n "paddle.assign"
                  then match dget String.eqb "output" ks with Some o => [(place o, value p)] | None => [] end
                  else []
         | None => match f with Member a m => if ends_with_underscore m then [(place a, value p)] else [] | _ => [] end
         end)%list
    end.
  (** After the stores [l], [t] holds [v] and nothing else was changed.  The values of the
      texts are those before the call: arguments that share memory with the changed tensor
      are not described. *)
  Fixpoint settles {T} (t : T) (v : V) (l : list (T * V)) : Prop :=
    match l with
    | [] => False
    | [(t', x)] => t' = t /\ x = v
    | (t', _) :: r => t' = t /\ settles t v r
    end.
End Value.

(** ** Calls
    What the call binds to a parameter. *)
Definition argument (r : row) (args : list expr) (kwargs : list kwnode) (k : string) : option string :=
  last_binding (Some k) (bindings (position_args (r_entry r)) args kwargs).

(** The tensor that a PyTorch call changes: the receiver of a method whose name ends with
    "_", the argument "out". *)
Definition destination (name : string) (recv out : option string) : option string :=
  if ends_with_underscore name then recv
  else match out with
       | Some o => if String.eqb o "None" then None else Some o
       | None => None
       end.
Definition stored (W : algebra) (t : option string) (v : V W) (l : list (option string * V W)) : Prop :=
  match t with Some o => settles W (Some o) v l | None => l = [] end.
(** The values of the arguments and of the receiver. *)
Definition argument_values (W : algebra) (rho : string -> V W) r args kwargs (k : string) : option (V W) :=
  option_map rho (argument r args kwargs k).
Definition receiver_value (W : algebra) (rho : string -> V W) (recv : option string) : V W :=
  match recv with Some v => rho v | None => word W "None" end.

(** ** The call to one function
    [f] is a dotted name, or "." and the name of a method.  The call is the expression, or
    stands where its value comes from: an object with a member or an index, or the first
    argument. *)
Definition calls (f : string) (g : pexp) : bool :=
  match path g with
  | Some n => String.eqb n f
  | None => match g with Member _ m => String.eqb ("." ++ m) f | _ => false end
  end.
Fixpoint keywords_to (f : string) (p : pexp) : option (list (string * pexp)) :=
  match p with
  | Apply g ps ks =>
      if calls f g then Some ks
      else match keywords_to f g with
           | Some l => Some l
           | None => match ps with x :: _ => keywords_to f x | [] => None end
           end
  | Member a _ | Index a _ => keywords_to f a
  | _ => None
  end.
(** The value of the parameter [k], whose default is [d]. *)
Definition receives (W : algebra) (rho : string -> V W) (k : string) (d : option (V W)) (ks : list (string * pexp)) : option (V W) :=
  match dget String.eqb k ks with Some e => Some (value W rho e) | None => d end.

(** Properties of numbers and of the functions that the formulas need. *)
Record lawful (W : algebra) : Prop := MkLawful {
  sub_is : forall x y, sub W x y = plus W x (minus W y);
  plus_comm : forall x y, plus W x y = plus W y x;
  times_comm : forall x y, times W x y = times W y x;
  times_one : forall x, times W (num W 1) x = x;
  times_minus : forall x y, times W (minus W x) y = minus W (times W x y);
  minus_minus : forall x, minus W (minus W x) = x;
  divide_is : forall x y z, divide W (times W x y) z = times W x (divide W y z);
  num_minus : forall a b, sub W (num W a) (num W b) = num W (Qred (a - b));
  erf_at_minus_infinity : erf W (minus W (to_float W (quoted W """inf"""))) = minus W (num W 1);
  root_of_two : power W (num W 2) (divide W (num W 1) (num W 2)) = sqrt W (num W 2);
  not_true : negation W (word W "True") = word W "False";
  not_false : negation W (word W "False") = word W "True"
}.

Section Tables.
  Variable W : algebra.
  Notation V := (V W).
  (** [a k]: the value of the argument [k] if it is given; [x]: of the receiver. *)
  Notation call := (string -> option V).
  Notation "x + y" := (plus W x y). Notation "x - y" := (sub W x y).
  Notation "x * y" := (times W x y). Notation "x / y" := (divide W x y).
  Notation one := (num W 1). Notation two := (num W 2).
  Notation get a k := (or_else W (a k) (word W "None")).
  Notation get_or a k d := (or_else W (a k) d).

  (** The PyTorch documentation of these functions; for methods [x] is the receiver. *)
  Definition formulas : list (string * (call -> V -> V)) :=
    [("torch.addbmm", fun a _ => get_or a "beta" one * get a "input" + get_or a "alpha" one * sum_along W (bmm W (get a "batch1") (get a "batch2")) (num W 0));
     ("torch.Tensor.addbmm", fun a x => get_or a "beta" one * x + get_or a "alpha" one * sum_along W (bmm W (get a "batch1") (get a "batch2")) (num W 0));
     ("torch.Tensor.addbmm_", fun a x => get_or a "beta" one * x + get_or a "alpha" one * sum_along W (bmm W (get a "batch1") (get a "batch2")) (num W 0));
     ("torch.addcmul", fun a _ => get a "input" + get_or a "value" one * get a "tensor1" * get a "tensor2");
     ("torch.Tensor.addcmul", fun a x => x + get_or a "value" one * get a "tensor1" * get a "tensor2");
     ("torch.Tensor.addcmul_", fun a x => x + get_or a "value" one * get a "tensor1" * get a "tensor2");
     ("torch.addcdiv", fun a _ => get a "input" + get_or a "value" one * (get a "tensor1" / get a "tensor2"));
     ("torch.Tensor.addmv", fun a x => get_or a "beta" one * x + get_or a "alpha" one * matmul W (get a "mat") (get a "vec"));
     ("torch.Tensor.addr", fun a x => get_or a "beta" one * x + get_or a "alpha" one * outer W (get a "vec1") (get a "vec2"));
     ("torch.special.erfc", fun a _ => one - erf W (get a "input"));
     ("torch.Tensor.erfc", fun _ x => one - erf W x);
     ("torch.Tensor.erfc_", fun _ x => one - erf W x);
     ("torch.special.erfcx", fun a _ => exp W (power W (get a "input") two) * (one - erf W (get a "input")));
     ("torch.special.exp2", fun a _ => power W two (get a "input"));
     ("torch.logaddexp2", fun a _ => log2 W (power W two (get a "input") + power W two (get a "other")));
     ("torch.Tensor.logaddexp2", fun a x => log2 W (power W two x + power W two (get a "other")));
     ("torch.Tensor.logdet", fun _ x => log W (det W x));
     ("torch.special.ndtr", fun a _ => (one + erf W (get a "input" / sqrt W two)) / two);
     ("torch.special.ndtri", fun a _ => sqrt W two * erfinv W (two * get a "input" - one));
     ("torch.Tensor.where", fun a x => choose W (get a "condition") x (get a "other"));
     ("torch.select", fun a _ => squeeze W (pick W (get a "input") (get a "dim") (listed W [get a "index"])) (get a "dim"));
     ("torch.Tensor.select", fun a x => squeeze W (pick W x (get a "dim") (listed W [get a "index"])) (get a "dim"));
     ("torch.nn.functional.bilinear", fun a _ =>
        bilinear W (get a "input1") (get a "input2") (get a "weight")
          (match a "bias" with Some b => Some (unsqueeze W b (num W 0)) | None => None end))].
  (** Functions that differ from the product with a logarithm where it is not defined. *)
  Definition logarithmic : list (string * (call -> V -> V)) :=
    [("torch.special.xlogy", fun a _ => get a "input" * log W (get a "other"));
     ("torch.Tensor.xlogy", fun a x => x * log W (get a "other"));
     ("torch.Tensor.xlogy_", fun a x => x * log W (get a "other"));
     ("torch.special.xlog1py", fun a _ => get a "input" * log1p W (get a "other"))].

  (** Parameters that PyTorch and paddle describe differently: PyTorch name; the paddle
      function, its parameter and the default of that; the value it must receive, from the
      PyTorch documentation. *)
  Notation no := (word W "False"). Notation yes := (word W "True").
  Notation "! x" := (negation W x) (at level 35).
  Notation entry := (string * (string * string * option V * (call -> option V)))%type.
  Definition collective (n f : string) : entry :=
    (n, (f, "sync_op", Some yes, fun a => Some (! get_or a "async_op" no))).
  Definition recurrent (n f : string) : entry :=
    (n, (f, "time_major", Some no, fun a => Some (! get_or a "batch_first" no))).
  Definition pooling (n : string) : entry :=
    (n, ("paddle.nn.functional." ++ substring 20 10 n, "exclusive", Some yes, fun a => Some (! get_or a "count_include_pad" yes))).
  (* PyTorch: the weight of the new value; paddle: of the old one *)
  Definition normalization (n f : string) : entry :=
    (n, (f, "momentum", Some (num W (9 # 10)), fun a => Some (one - get_or a "momentum" (num W (1 # 10))))).
  (* sym: a filter, symmetric; fftbins: periodic *)
  Definition window (n : string) : list entry :=
    [("torch.signal.windows." ++ n, ("paddle.audio.functional.get_window", "fftbins", Some yes, fun a => Some (! get_or a "sym" yes)));
     ("torch.signal.windows." ++ n, ("paddle.audio.functional.get_window", "window", None, fun _ => Some (quoted W ("'" ++ n ++ "'"))));
     ("torch.signal.windows." ++ n, ("paddle.audio.functional.get_window", "win_length", None, fun a => a "M"))].
  Definition adapted : list entry :=
    ([collective "torch.distributed.all_gather" "paddle.distributed.all_gather";
     collective "torch.distributed.all_gather_into_tensor" "paddle.distributed.stream.all_gather";
     collective "torch.distributed.all_reduce" "paddle.distributed.all_reduce";
     collective "torch.distributed.all_to_all_single" "paddle.distributed.alltoall_single";
     collective "torch.distributed.broadcast" "paddle.distributed.broadcast";
     collective "torch.distributed.gather" "paddle.distributed.gather";
     collective "torch.distributed.reduce" "paddle.distributed.reduce";
     collective "torch.distributed.reduce_scatter" "paddle.distributed.reduce_scatter";
     collective "torch.distributed.scatter" "paddle.distributed.scatter";
     recurrent "torch.nn.LSTM" "paddle.nn.LSTM";
     recurrent "torch.nn.RNN" "paddle.nn.SimpleRNN";
     recurrent "torch.nn.RNNBase" "paddle.nn.layer.rnn.RNNBase";
     pooling "torch.nn.functional.avg_pool1d";
     pooling "torch.nn.functional.avg_pool2d";
     pooling "torch.nn.functional.avg_pool3d";
     normalization "torch.nn.InstanceNorm1d" "paddle.nn.InstanceNorm1D";
     normalization "torch.nn.InstanceNorm2d" "paddle.nn.InstanceNorm2D";
     normalization "torch.nn.InstanceNorm3d" "paddle.nn.InstanceNorm3D";
     normalization "torch.nn.SyncBatchNorm" "paddle.nn.SyncBatchNorm";
     normalization "torch.nn.modules.batchnorm._BatchNorm" "paddle.nn.layer.norm._BatchNormBase";
     ("torch.optim.Optimizer.zero_grad", (".clear_gradients", "set_to_zero", Some yes, fun a => Some (! get_or a "set_to_none" yes)));
     ("torch.linalg.diagonal", ("paddle.diagonal", "axis1", Some (num W 0), fun a => Some (get_or a "dim1" (minus W two))));
     ("torch.linalg.diagonal", ("paddle.diagonal", "axis2", Some one, fun a => Some (get_or a "dim2" (minus W one))));
     ("torch.nn.Softmax2d", ("paddle.nn.Softmax", "axis", Some (minus W one), fun _ => Some (minus W (num W 3))));
     ("torch.nn.functional.softmin", ("paddle.nn.functional.softmax", "x", None, fun a => Some (minus W (get a "input"))))]
    ++ window "blackman" ++ window "cosine" ++ window "hamming" ++ window "hann")%list.
End Tables.
