(** Calls handled by the class [GenericMatcher] (C107) and the receiver of method calls
    (C108): specification. *)
From Verif Require Import PyStr PyDict Args ArgsSpec.

(** The classes whose methods are called on the receiver. *)
Definition receiver_classes : list string :=
  ["paddle.Tensor"; "paddle.nn.Module"; "paddle.optimizer.Optimizer"; "paddle.optim.Optimizer";
   "paddle.distribution.Distribution"; "paddle.distributions.distribution.Distribution";
   "paddle.autograd.function.FunctionCtx"; "paddle.profiler.Profiler"].
(** What is called: the paddle function, or the paddle method on the receiver [v]. *)
Inductive called_on (api : string) : option string -> string -> Prop :=
| on_function : called_on api None api
| on_receiver c rest v : In c receiver_classes -> api = c ++ rest -> called_on api (Some v) (v ++ rest)
| on_no_class v : (forall c rest, In c receiver_classes -> api <> c ++ rest) -> called_on api (Some v) api.

(** Rows with two parameters, "indices" and "sections", of which a call gives one. *)
Definition two_for_one : list string :=
  ["torch.Tensor.dsplit"; "torch.Tensor.hsplit"; "torch.Tensor.vsplit"; "torch.dsplit"; "torch.hsplit"; "torch.vsplit"].

(** A call that a row with signature [e] describes: no [*] and [**], all keywords and
    positional parameters known and supported, no parameter given twice, the number of
    arguments (keyword-only ones not counted) in range. *)
Record fits (e : entry) (args : list expr) (kwargs : list kwnode) : Prop := {
  fits_unstarred : forall a, In a args -> e_starred a = false;
  fits_keywords : forall n, In n kwargs -> exists k, kw_arg n = Some k /\
                  In k (args_list e ++ overload_args_list e)%list /\ ~ In k (unsupport_args e);
  fits_number : (min_input_args e <=
                 List.length args + List.length (filter (fun n => negb (key_in (kw_arg n) (force_kwargs e))) kwargs)
                 <= List.length (position_args e))%nat;
  fits_positions : forall k, In k (firstn (List.length args) (position_args e)) -> ~ In k (unsupport_args e);
  fits_once : NoDup (map fst (bindings (position_args e) args kwargs))
}.
Definition one_of_two (e : entry) (args : list expr) (kwargs : list kwnode) : Prop :=
  ~ In (Some "indices") (map fst (bindings (position_args e) args kwargs)) \/
  ~ In (Some "sections") (map fst (bindings (position_args e) args kwargs)).
(** The arguments of the new call: the given ones under their new names, and the defaults
    of the row that are not given. *)
Definition final_arguments (e : entry) (args : list expr) (kwargs : list kwnode) : table :=
  let given := renamed e generic_unused (bindings (position_args e) args kwargs) in
  (given ++ missing_defaults e given)%list.

(** A receiver with neither a backslash nor a line break. *)
Definition plain_text (v : string) : Prop := mem_char "\" v = false /\ mem_char nl v = false.
(** What becomes of an arbitrary receiver: of two characters of which the first is a
    backslash, the backslash is lost, unless the second is a blank or one of the listed
    signs; a line break gets a backslash. *)
Definition sign (c : ascii) : bool := mem_char c "()[]{}?*+-|^$.&~# " || in_range 9 13 c.
Fixpoint garbled (s : string) : string :=
  match s with
  | EmptyString => ""
  | String c r =>
      if Ascii.eqb c "\" then
        match r with
        | EmptyString => "\"
        | String d r' => if sign d then String "\" (String d (garbled r')) else String d (garbled r')
        end
      else if Ascii.eqb c nl then String "\" (String nl (garbled r))
      else String c (garbled r)
  end.
