(** More of the code that runs in the converted program: functions written into
    paddle_utils.py and expressions the matchers write out.  Definitions only.

    As in Helpers.v, what is modelled is the logic of the code itself. *)
From Verif Require Import PyStr PyDict Ast Helpers.
Open Scope list_scope.
Open Scope nat_scope.

(** ** Rotary embeddings *)
Section Rotary.
  (** Numbers with the operations the function uses. *)
  Variable A : Type.
  Variable add mul : A -> A -> A.
  Variable opp : A -> A.
  (** [a * b], [a + b] along the last axis.  Simplification: of two different lengths none is
      broadcast.  The length of [cos] and [sin] is even here, so one of them could only be
      stretched against a single number, for which [rearrange] raises. *)
  Fixpoint elementwise (op : A -> A -> A) (a b : list A) : res (list A) :=
    match a, b with
    | [], [] => Ok []
    | x :: a, y :: b => let* r := elementwise op a b in Ok (op x y :: r)
    | _, _ => Raise "ValueError"
    end.
  (** api_matcher.py:3838-3843 [_rotate_half]: the halves of the last axis, the second one
      negated and put first; [rearrange] into two rows raises for an odd length. *)
  Definition rotate_half (x : list A) : res (list A) :=
    if Nat.even (List.length x) then
      let h := Nat.div2 (List.length x) in Ok (map opp (skipn h x) ++ firstn h x)
    else Raise "EinopsError".
  (** api_matcher.py:3844-3855 along the last axis, for one position of one head: [cos] and
      [sin] are the rows of that position. *)
  Definition rotate_row (x cos sin : list A) : res (list A) :=
    let cos := cos ++ cos in
    let sin := sin ++ sin in
    let t_rot := firstn (List.length cos) x in
    let t_pass := skipn (List.length cos) x in
    let* a := elementwise mul t_rot cos in
    let* h := rotate_half t_rot in
    let* b := elementwise mul h sin in
    let* c := elementwise add a b in
    Ok (c ++ t_pass).
  Fixpoint each {B C} (f : B -> res C) (l : list B) : res (list C) :=
    match l with
    | [] => Ok []
    | x :: l => let* y := f x in let* r := each f l in Ok (y :: r)
    end.
  (** One batch entry: [cos] and [sin] got an axis of length 1 for the heads.  Along the
      sequence one row is stretched; other different lengths raise.  A single position of
      [x] against several rows raises in the end, where [t_pass] still has one position. *)
  Fixpoint rotate_sequence (x : list (list (list A))) (cos sin : list (list A)) : res (list (list (list A))) :=
    match x, cos, sin with
    | [], [], [] => Ok []
    | p :: x, c :: cos, s :: sin =>
        let* q := each (fun h => rotate_row h c s) p in
        let* r := rotate_sequence x cos sin in
        Ok (q :: r)
    | _, _, _ => Raise "ValueError"
    end.
  Definition stretched {B} (n : nat) (l : list B) : list B :=
    match l with [row] => repeat row n | _ => l end.
  (** api_matcher.py:3832-3855 [apply_rotary_position_embeddings]; [x] is indexed by batch
      entry, position, head and component, [cos] and [sin] by position and component. *)
  Definition apply_rotary (x : list (list (list (list A)))) (cos sin : list (list A)) : res (list (list (list (list A)))) :=
    each (fun s => rotate_sequence s (stretched (List.length s) cos) (stretched (List.length s) sin)) x.
End Rotary.

(** ** Paths *)
(** api_matcher.py:5742 [f.rsplit('.', 1)[0]] *)
Definition before_last_dot (f : string) : string :=
  match rsplit1 "."%char f with Some (a, _) => a | None => f end.

(** ** Numbers of threads *)
(** What an expression gives. *)
Inductive value := VInt (z : Z) | VStr (s : string).
(** [os.environ] *)
Definition environment := dict string string.
(** api_matcher.py:5205-5207 [_set_num_interop_threads], 5228-5230 [_set_num_threads] *)
Definition set_num_interop_threads (n : Z) (env : environment) : environment :=
  dset String.eqb "OMP_NUM_THREADS"%string (int_to_str n) env.
Definition set_num_threads (n : Z) (env : environment) : environment :=
  dset String.eqb "CPU_NUM"%string (int_to_str n) env.
(** api_matcher.py:5194-5195 [int(os.environ['OMP_NUM_THREADS'])] *)
Definition get_num_interop_threads (env : environment) : res value :=
  match dget String.eqb "OMP_NUM_THREADS"%string env with
  | None => Raise "KeyError"
  | Some s => match py_int s with Some z => Ok (VInt z) | None => Raise "ValueError" end
  end.
(** api_matcher.py:5182-5183 [os.getenv("CPU_NUM",1)] *)
Definition get_num_threads (env : environment) : res value :=
  match dget String.eqb "CPU_NUM"%string env with
  | None => Ok (VInt 1)
  | Some s => Ok (VStr s)
  end.

(** ** Ranks *)
(** A launch on several machines with the same number of processes on each. *)
Record process := MkProcess { machine : nat; on_machine : nat; per_machine : nat; machines : nat }.
(** [paddle.distributed.get_rank()], [paddle.distributed.get_world_size()] *)
Definition get_rank (p : process) : Z := Z.of_nat (machine p * per_machine p + on_machine p).
Definition get_world_size (p : process) : Z := Z.of_nat (machines p * per_machine p).
(** api_matcher.py:4867-4879: what [os.environ.get(key)] becomes gives, for the two keys that
    are converted. *)
Definition converted_environ (p : process) (key : string) : option value :=
  if String.eqb key "WORLD_SIZE" then Some (VInt (get_world_size p))
  else if String.eqb key "LOCAL_RANK" then Some (VInt (get_rank p))
  else None.
