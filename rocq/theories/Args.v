(** Model of argument handling in [BaseMatcher] (paconvert/base.py:326-510) and of
    the matchers that only re-emit their arguments (paconvert/api_matcher.py).
    Definitions only. *)
From Verif Require Import PyStr PyDict UtilsFile.

(** An argument expression: whether it is [ast.Starred], whether it is the constant
    [None], and what [astor.to_source] prints for it (the printer is not modelled). *)
Record expr := MkExpr { e_starred : bool; e_none : bool; e_source : string }.

(** [ast.keyword]: [None] name for [**mapping]. *)
Record kwnode := MkKw { kw_arg : option string; kw_value : expr }.

(** One right-hand side of [kwargs_change] in api_mapping.json: "", a name or a list. *)
Inductive target := TNone | TName (n : string) | TList (ns : list string).

(** One entry of api_mapping.json.  Absent lists are empty lists, an absent number is
    0 ([.get(..) or []], base.py:340-344).  Default values are kept as the text that
    ["{}".format] prints (base.py:454). *)
Record entry := MkEntry {
  args_list : list string;
  overload_args_list : list string;
  min_input_args : nat;
  unsupport_args : list string;
  kwargs_change : dict string target;
  paddle_default_kwargs : dict string string;
  paddle_api : option string
}.

(** [None] is a legal key of the argument dictionaries ([**mapping]). *)
Definition key := option string.
Definition key_eqb (a b : key) : bool :=
  match a, b with
  | None, None => true
  | Some x, Some y => String.eqb x y
  | _, _ => false
  end.
Definition key_in (k : key) (l : list string) : bool :=
  match k with None => false | Some x => mem_str x l end.
Definition table := dict key string.

(** [astor.to_source(node).strip("\n")] *)
Definition text (e : expr) : string := strip_by (fun c => Ascii.eqb c nl) (e_source e).

(** base.py:346-350: [groupby] on [x == "*"], keeping the runs without "*".
    [cur] is the current run, reversed. *)
Fixpoint star_groups (cur : list string) (l : list string) : list (list string) :=
  match l with
  | [] => match cur with [] => [] | _ => [rev cur] end
  | x :: r =>
      if String.eqb x "*" then
        match cur with [] => star_groups [] r | _ => rev cur :: star_groups [] r end
      else star_groups (x :: cur) r
  end.
Definition position_args (e : entry) : list string := nth 0 (star_groups [] (args_list e)) [].
Definition force_kwargs (e : entry) : list string := nth 1 (star_groups [] (args_list e)) [].

(** Outcome of parsing: the dictionary, [None], ["misidentify"], or an exception. *)
Inductive parsed := Bound (t : table) | Unsupported | Misidentified | IndexError.

(** base.py:356-371: [for node in kwargs], where [kwargs.remove(node)] is applied to
    the list being iterated, so that the element after a removed one is not visited.
    Result: early return value, the list as the loop leaves it, and
    [force_kwargs_num].  Simplification: the nodes of a call are distinct objects, so
    [remove] removes the visited one. *)
Fixpoint check_kwargs (e : entry) (allow_none : bool) (l : list kwnode)
  : option parsed * list kwnode * nat :=
  match l with
  | [] => (None, [], 0)
  | n :: r =>
      let k := kw_arg n in
      if match k with None => negb allow_none | Some _ => false end
      then (Some Unsupported, l, 0)
      else if key_in k (unsupport_args e) then
        if e_none (kw_value n) then
          match r with
          | [] => (None, [], 0)
          | m :: r' => let '(v, l', c) := check_kwargs e allow_none r' in (v, m :: l', c)
          end
        else (Some Unsupported, l, 0)
      else if negb (key_in k (args_list e ++ overload_args_list e)%list) then (Some Misidentified, l, 0)
      else
        let '(v, l', c) := check_kwargs e allow_none r in
        (v, n :: l', if key_in k (force_kwargs e) then S c else c)
  end.

(** base.py:380-387: positional arguments. *)
Fixpoint bind_args (e : entry) (i : nat) (args : list expr) (t : table) : parsed :=
  match args with
  | [] => Bound t
  | a :: r =>
      match nth_error (position_args e) i with
      | None => IndexError
      | Some k =>
          if mem_str k (unsupport_args e) then Unsupported
          else bind_args e (S i) r (dset key_eqb (Some k) (text a) t)
      end
  end.

(** base.py:389-399: keyword arguments (a repeated name is only logged). *)
Definition bind_kwargs (kwargs : list kwnode) (t : table) : table :=
  fold_left (fun acc n => dset key_eqb (kw_arg n) (text (kw_value n)) acc) kwargs t.

(** base.py:337-401 [parse_args_and_kwargs].  The second component is what is left
    of the [keywords] list of the call node. *)
Definition parse_args_and_kwargs (e : entry) (allow_starred allow_none : bool)
  (args : list expr) (kwargs : list kwnode) : parsed * list kwnode :=
  if existsb (fun a => e_starred a && negb allow_starred) args then (Unsupported, kwargs)
  else
    let '(early, kept, forced) := check_kwargs e allow_none kwargs in
    match early with
    | Some r => (r, kept)
    | None =>
        let num := (List.length args + List.length kept - forced)%nat in
        if (num <? min_input_args e)%nat then (Misidentified, kept)
        else if (List.length (position_args e) <? num)%nat then (Misidentified, kept)
        else
          match bind_args e 0 args [] with
          | Bound t => (Bound (bind_kwargs kept t), kept)
          | r => (r, kept)
          end
    end.

(** base.py:403-411 [parse_args] *)
Definition parse_args (args : list expr) : list string := map text args.

(** base.py:413-428 [parse_kwargs]; [None] is Python's [None]. *)
Fixpoint parse_kwargs_from (e : entry) (allow_none : bool) (kwargs : list kwnode) (t : table)
  : option table :=
  match kwargs with
  | [] => Some t
  | n :: r =>
      if match kw_arg n with None => negb allow_none | Some _ => false end then None
      else if key_in (kw_arg n) (unsupport_args e) then None
      else parse_kwargs_from e allow_none r (dset key_eqb (kw_arg n) (text (kw_value n)) t)
  end.
Definition parse_kwargs (e : entry) (allow_none : bool) (kwargs : list kwnode) : option table :=
  parse_kwargs_from e allow_none kwargs [].

(** ["{}={}".format(k, v)]: the key [None] prints as "None". *)
Definition kw_plain (kv : key * string) : string :=
  (match fst kv with Some k => k | None => "None" end ++ "=" ++ snd kv)%string.
(** base.py:463-468: [**v] for the key [None]. *)
Definition kw_star (kv : key * string) : string :=
  match fst kv with Some k => k ++ "=" ++ snd kv | None => "**" ++ snd kv end%string.

(** base.py:444-449 [args_to_str] *)
Definition args_to_str (args : list string) : string := join ", " args.
(** base.py:451-456 [kwargs_to_str] *)
Definition kwargs_to_str (t : table) : string := join ", " (map kw_plain t).
(** base.py:458-470 [args_and_kwargs_to_str] *)
Definition args_and_kwargs_to_str (args : list string) (t : table) : string :=
  join ", " (args ++ map kw_star t)%list.

(** base.py:472-487 [change_kwargs] *)
Definition change_one (e : entry) (unuse : list string) (acc : table) (kv : key * string) : table :=
  let '(k, v) := kv in
  let plain :=
    let acc' := dset key_eqb k v acc in
    if key_in k unuse then ddel key_eqb k acc' else acc' in
  match k with
  | None => plain
  | Some x =>
      match dget String.eqb x (kwargs_change e) with
      | Some (TName n) => if String.eqb n "" then acc else dset key_eqb (Some n) v acc
      | Some (TList ns) => fold_left (fun a n => dset key_eqb (Some n) v a) ns acc
      | Some TNone => acc
      | None => plain
      end
  end.
Definition change_kwargs (e : entry) (unuse : list string) (t : table) : table :=
  fold_left (change_one e unuse) t [].

(** base.py:497-509 [set_paddle_default_kwargs] *)
Definition set_paddle_default_kwargs (e : entry) (t : table) : table :=
  fold_left (fun acc d => if dmem key_eqb (Some (fst d)) acc then acc
                          else dset key_eqb (Some (fst d)) (snd d) acc)
            (paddle_default_kwargs e) t.

(** [for k in names: if k in kwargs: kwargs.pop(k)] *)
Definition drop_names (names : list string) (t : table) : table :=
  fold_left (fun acc k => if dmem key_eqb (Some k) acc then ddel key_eqb (Some k) acc else acc) names t.

(** Outcome of generating code: the text handed to [ast.parse], or an exception. *)
Inductive code := Code (s : string) | TypeError.

Definition call_text (api : string) (args : list string) (t : table) : string :=
  (api ++ "(" ++ args_and_kwargs_to_str args t ++ ")")%string.

(** The shape shared by [ChangePrefixMatcher], [ChangeAPIMatcher] and
    [CheckPointMatcher]: [k in kwargs] raises when [parse_kwargs] returned [None]. *)
Definition reemit (dropped : list string) (e : entry) (api : string)
  (args : list expr) (kwargs : list kwnode) : code :=
  match parse_kwargs e true kwargs with
  | None => TypeError
  | Some t => Code (call_text api (parse_args args) (drop_names dropped t))
  end.

(** api_matcher.py:375-385 [ChangePrefixMatcher.get_paddle_nodes]; [api] is the
    result of [get_paddle_api].  [get_paddle_class_nodes] (390-404) has the same
    shape with the rewritten attribute chain as [api]. *)
Definition change_prefix_nodes : entry -> string -> list expr -> list kwnode -> code :=
  reemit ["layout"; "generator"; "memory_format"; "sparse_grad"; "foreach"].

(** api_matcher.py:416-429 [ChangeAPIMatcher.get_paddle_nodes] *)
Definition change_api_nodes : entry -> string -> list expr -> list kwnode -> code :=
  reemit ["layout"; "generator"; "memory_format"].

(** api_matcher.py:432-444 [CheckPointMatcher.get_paddle_nodes] *)
Definition check_point_nodes : entry -> string -> list expr -> list kwnode -> code :=
  reemit ["context_fn"; "determinism_check"; "debug"].

(** api_matcher.py:90-152 [GenericMatcher.generate_code].  [fresh] is the name
    [get_unique_name("out")] would return, [api] the result of [get_paddle_api].
    The template literals start and end with a newline ([textwrap.dedent]). *)
Definition generic_unused : list string :=
  ["layout"; "device"; "memory_format"; "inplace"; "generator"; "non_blocking"; "async"].

(** ["dtype" not in kwargs_change.values()] *)
Definition is_target (n : string) (e : entry) : bool :=
  existsb (fun kv => match snd kv with TName m => String.eqb n m | TNone => String.eqb n "" | TList _ => false end)
          (kwargs_change e).

(** [if n in kwargs and n not in kwargs_change_value: v = kwargs.pop(n)] *)
Definition pop_special (n : string) (e : entry) (t : table) : option string * table :=
  if dmem key_eqb (Some n) t && negb (is_target n e)
  then (dget key_eqb (Some n) t, ddel key_eqb (Some n) t) else (None, t).

Definition is_paren (c : ascii) : bool := mem_char c "()".

Definition generic_code (e : entry) (api fresh : string) (kwargs : table) : string :=
  let t0 := set_paddle_default_kwargs e (change_kwargs e generic_unused kwargs) in
  let '(dtype, t1) := pop_special "dtype" e t0 in
  let '(pin, t2) := pop_special "pin_memory" e t1 in
  let '(grad, t3) := pop_special "requires_grad" e t2 in
  let '(out, t4) := pop_special "out" e t3 in
  let dtype_v := match dtype with Some v => v | None => "None" end in
  let pin_v := match pin with Some v => v | None => "(False)" end in
  let grad_v := match grad with Some v => "not " ++ strip_by is_paren v | None => "None" end in
  let out_v := match out with Some v => v | None => "None" end in
  let c0 := api ++ "(" ++ kwargs_to_str t4 ++ ")" in
  let c1 := if String.eqb dtype_v "None" then c0 else c0 ++ ".astype(" ++ dtype_v ++ ")" in
  let c2 := if String.eqb pin_v "(False)" then c1 else c1 ++ ".pin_memory()" in
  let has_grad := negb (String.eqb grad_v "None") in
  let has_out := negb (String.eqb out_v "None") in
  if has_grad && has_out then
    nls ++ "paddle.assign(" ++ c2 ++ ", output=" ++ out_v ++ ")" ++ nls ++
    out_v ++ ".stop_gradient = " ++ grad_v ++ nls ++ out_v ++ nls
  else if has_grad then
    nls ++ fresh ++ " = " ++ c2 ++ nls ++ fresh ++ ".stop_gradient = " ++ grad_v ++ nls ++ fresh ++ nls
  else if has_out then nls ++ "paddle.assign(" ++ c2 ++ ", output=" ++ out_v ++ ")" ++ nls
  else c2.

(** api_matcher.py:55-88 [process_reduce_and_size_average] *)
Definition truth_of (t : table) (n : string) : option bool :=
  match dget key_eqb (Some n) t with
  | None => None
  | Some v => if contains "True" v then Some true
              else if contains "False" v then Some false else None
  end.
Definition triple (s : string) : string := ("""""""" ++ s ++ """""""")%string.
Definition process_reduce_and_size_average (t : table) : table :=
  let sa := truth_of t "size_average" in
  let rd := truth_of t "reduce" in
  let t' := ddel key_eqb (Some "reduce") (ddel key_eqb (Some "size_average") t) in
  match sa, rd with
  | None, None => t'
  | _, _ =>
      let sa' := match sa with Some b => b | None => true end in
      let rd' := match rd with Some b => b | None => true end in
      dset key_eqb (Some "reduction")
        (if sa' && rd' then triple "mean" else if rd' then triple "sum" else triple "none") t'
  end.
