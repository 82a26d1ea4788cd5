(** Model of the [generate_code] methods of paconvert/api_matcher.py.

    The bodies of these methods use a small part of Python: conditionals on the
    presence of an argument and on its text, [pop], assignment, [str.format].  The
    syntax and the meaning of that part are given here; GenerateData.v holds the
    bodies themselves, one definition per method.  Definitions only. *)
From Verif Require Import PyStr PyDict UtilsFile Args.

(** A text under construction remembers where its parts come from: the text of an
    argument of the call, of the receiver of a method call, or nothing (template).
    [render] forgets it; no step of the semantics depends on it. *)
Inductive source := Argument (k : string) | Receiver.
Record piece := MkPiece { sources : list source; content : string }.
Definition rope := list piece.
Fixpoint render (r : rope) : string :=
  match r with [] => "" | p :: q => content p ++ render q end.
Definition origins (r : rope) : list source := flat_map sources r.
Definition lit (s : string) : rope := [MkPiece [] s].

(** [str] methods applied to texts.  [Through] is the detour of
    [BaseMatcher.parse_func] through [re.escape] and [re.sub] (see [through_re]). *)
Inductive edit :=
| Strip (chars : string) | RStrip (chars : string) | StripSpace
| Replace (old new : string)
| AfterLast (c : string) | BeforeLast (c : string) | FromLast (c : string)
| Through.

(** [re.escape]: the characters of [re._special_chars_map]. *)
Definition special (c : ascii) : bool :=
  mem_char c "()[]{}?*+-|^$\.&~# " || in_range 9 13 c.
Fixpoint re_escape (s : string) : string :=
  match s with
  | EmptyString => EmptyString
  | String c r => if special c then String "\" (String c (re_escape r)) else String c (re_escape r)
  end.
(** The replacement template of [re.sub] after [re.escape]: a doubled backslash
    becomes one, every other escaped character keeps its backslash
    (sre_parse.parse_template). *)
Fixpoint re_template (s : string) : string :=
  match s with
  | EmptyString => EmptyString
  | String c r =>
      if Ascii.eqb c "\" then
        match r with
        | String d r' => if Ascii.eqb d "\" then String "\" (re_template r') else String c (String d (re_template r'))
        | EmptyString => String c EmptyString
        end
      else String c (re_template r)
  end.
(** base.py:441: [re.sub(r"\\(.)", r"\1", s)]; [.] does not match a newline. *)
Fixpoint re_unescape (s : string) : string :=
  match s with
  | EmptyString => EmptyString
  | String c r =>
      if Ascii.eqb c "\" then
        match r with
        | String d r' => if Ascii.eqb d nl then String c (re_unescape r) else String d (re_unescape r')
        | EmptyString => String c EmptyString
        end
      else String c (re_unescape r)
  end.
(** base.py:435-442: what becomes of the receiver text inside [self.paddle_api]. *)
Definition through_re (s : string) : string := re_unescape (re_template (re_escape s)).

Definition one_char (s : string) : ascii := match s with String c _ => c | _ => nl end.
Definition edit_text (f : edit) (s : string) : string :=
  match f with
  | Strip cs => strip_by (fun c => mem_char c cs) s
  | RStrip cs => rstrip_by (fun c => mem_char c cs) s
  | StripSpace => py_strip s
  | Replace a b => py_replace s a b
  | AfterLast c => match rsplit1 (one_char c) s with Some (_, b) => b | None => s end
  | BeforeLast c =>
      match rsplit1 (one_char c) s with
      | Some (a, _) => a
      | None => substring 0 (String.length s - 1) s
      end
  | FromLast c =>
      match rsplit1 (one_char c) s with
      | Some (_, b) => c ++ b
      | None => substring (String.length s - 1) 1 s
      end
  | Through => through_re s
  end.

(** Tests on texts: [s == c], [c in s], [s.isdigit()] (ASCII), and the condition of
    api_matcher.py:2443, [s[1:-1].isdigit() and int(s[1:-1]) == 0]. *)
Inductive test := Is (c : string) | Has (c : string) | Digits | ZeroInside.
Fixpoint all_chars (p : ascii -> bool) (s : string) : bool :=
  match s with EmptyString => true | String c r => p c && all_chars p r end.
Definition isdigit (s : string) : bool :=
  negb (String.eqb s "") && all_chars (in_range 48 57) s.
Definition run_test (t : test) (s : string) : bool :=
  match t with
  | Is c => String.eqb s c
  | Has c => contains c s
  | Digits => isdigit s
  | ZeroInside =>
      let m := substring 1 (String.length s - 2) s in
      isdigit m && all_chars (Ascii.eqb "0") m
  end.

(** Expressions and statements.  [d] is the name of a dictionary variable. *)
Inductive exp :=
| ELit (s : string)                       (* a literal, or a number as printed *)
| EVar (x : string)
| EClass                                  (* self.paddleClass *)
| EApi                                    (* self.get_paddle_api() *)
| ETorch                                  (* self.torch_api *)
| EGet (d k : string)                     (* d[k] *)
| EPop (d k : string)                     (* d.pop(k) *)
| EGetOr (d k : string) (e : exp)         (* d.get(k, e) *)
| EPopOr (d k : string) (e : exp)         (* d.pop(k, e) *)
| EFormat (t : exp) (l : exps)            (* t.format(..) / f-string *)
| ECat (a b : exp)                        (* a + b *)
| EStr (f : edit) (a : exp)               (* a.strip(..), .. *)
| EKwargs (d : string)                    (* self.kwargs_to_str(d) *)
| EUnique (k : string)                    (* get_unique_name(k) *)
| EIf (c a b : exp)                       (* a if c else b *)
| ENone | EBool (b : bool)
| EIn (k d : string)                      (* k in d *)
| EEmpty (d : string)                     (* len(d) == 0, not d *)
| ETest (t : test) (a : exp)
| EIsNone (a : exp)                       (* a is None *)
| ENot (a : exp) | EAnd (a b : exp) | EOr (a b : exp)
| ETarget (k : string)                    (* k in kwargs_change.values() *)
| EConvert (k : string)                   (* k in convert_tensor *)
| EGenerate (b : block) (d : string)      (* M.generate_code(self, d) *)
with exps := Nil | Cons (e : exp) (l : exps)
with stmt :=
| SLet (x : string) (e : exp)             (* x = e *)
| SSet (d k : string) (e : exp)           (* d[k] = e *)
| SDo (e : exp)
| SNew (d : string)                       (* d = {} *)
| SCopy (d e : string)                    (* d = e.copy() *)
| SUpdate (d e : string)                  (* d.update(e) *)
| SMissing (d e : string)                 (* for k in e: if k not in d: d[k] = e[k] *)
| SRename (d e : string) (r : list (string * string))
                                          (* for k in list(e): d[r(k)] = e.pop(k) *)
| SChange (d e : string) (unuse : list string)   (* d = self.change_kwargs(e, unuse) *)
| SDefaults (d : string)                  (* d = self.set_paddle_default_kwargs(d) *)
| SUtils                                  (* self.enable_utils_code() *)
| SApi (e : exp)                          (* self.paddle_api = e *)
| SIf (c : exp) (a b : block)
| SReturn (e : exp)
with block := Done | Seq (s : stmt) (b : block).

Fixpoint of_exps (l : list exp) : exps := match l with [] => Nil | e :: r => Cons e (of_exps r) end.
Fixpoint of_stmts (l : list stmt) : block := match l with [] => Done | s :: r => Seq s (of_stmts r) end.

(** Values of local variables.  Numbers, and everything stored in a dictionary, are
    represented by what ["{}".format] prints for them. *)
Inductive value := Text (r : rope) | NoneV | Bool (b : bool).
Definition show (v : value) : rope :=
  match v with
  | Text r => r
  | NoneV => lit "None"
  | Bool true => lit "True"
  | Bool false => lit "False"
  end.
Definition truth (v : value) : bool :=
  match v with Text r => negb (String.eqb (render r) "") | NoneV => false | Bool b => b end.

Definition kwdict := dict string rope.

(** What a matcher object knows: its row, the name looked up, the receiver of a
    method call ([self.paddleClass], unset for plain calls), the value of
    "convert_tensor", and whether [get_paddle_api] asserts that the row has a name
    (classes below [GenericMatcher]). *)
Record ctx := MkCtx { row_of : entry; torch_api : string; receiver : option string;
                      convert_tensor : list string; strict : bool }.

Record state := MkState { vars : dict string value; dicts : dict string kwdict;
                          self_api : option rope; counters : ids; utils : bool }.
Inductive outcome (A : Type) := Ret (a : A) | Fail (e : string).
Arguments Ret {A}. Arguments Fail {A}.
Definition andthen {A B} (r : outcome A) (f : A -> outcome B) : outcome B :=
  match r with Ret a => f a | Fail e => Fail e end.
Notation "'run*' x := r 'in' k" := (andthen r (fun x => k))
  (at level 200, x pattern, r at level 100, k at level 200).

(** base.py:434: the classes whose name is replaced by the receiver. *)
Definition class_names : list string :=
  ["paddle.Tensor"; "paddle.nn.Module"; "paddle.optimizer.Optimizer"; "paddle.optim.Optimizer";
   "paddle.distribution.Distribution"; "paddle.distributions.distribution.Distribution";
   "paddle.autograd.function.FunctionCtx"; "paddle.profiler.Profiler"].
(** base.py:435-439: [re.sub(class_str, receiver, api)]: [api] cut at the class
    names; [None] stands for the receiver.  Simplification: "." in the pattern is
    read literally. *)
Fixpoint segments (skip : nat) (cur s : string) : list (option string) :=
  match s with
  | EmptyString => [Some cur]
  | String c r =>
      match skip with
      | S k => segments k cur r
      | O =>
          match find (fun n => prefix n s) class_names with
          | Some n => Some cur :: None :: segments (pred (String.length n)) "" r
          | None => segments 0 (cur ++ String c EmptyString) r
          end
      end
  end.
Definition receiver_piece (r : string) : rope := [MkPiece [Receiver] r].
(** base.py:430-442 [parse_func]: [self.paddle_api] of a method call.
    Simplification: the final unescaping is applied to the receiver alone (the
    receiver is an expression and does not end with a backslash, names in the table
    hold none). *)
Definition initial_api (c : ctx) : option rope :=
  match receiver c, paddle_api (row_of c) with
  | Some r, Some a =>
      if String.eqb a "" then None
      else Some (flat_map (fun x => match x with
                                    | Some s => lit s
                                    | None => receiver_piece (through_re r)
                                    end) (segments 0 "" a))
  | _, _ => None
  end.
(** base.py:538-552 [get_paddle_api] (its effect on the helper file is left out, no
    row handled here is "abstract"), with the assertion of api_matcher.py:94-96. *)
Definition get_paddle_api (c : ctx) (s : state) : outcome value :=
  if strict c && match paddle_api (row_of c) with None => true | Some _ => false end
  then Fail "AssertionError"
  else
    Ret (match self_api s with
         | Some r => if String.eqb (render r) "" then
             match paddle_api (row_of c) with Some a => Text (lit a) | None => NoneV end
             else Text r
         | None => match paddle_api (row_of c) with Some a => Text (lit a) | None => NoneV end
         end).

(** base.py:451-456 [kwargs_to_str] on ropes. *)
Fixpoint join_kwargs (d : kwdict) : rope :=
  match d with
  | [] => []
  | (k, v) :: r =>
      (MkPiece [] (k ++ "=") :: v ++
       match r with [] => [] | _ => MkPiece [] ", " :: join_kwargs r end)%list
  end.

(** base.py:472-487 [change_kwargs] on ropes: the names under which the value of [k]
    is stored; [None] for a dropped key (stored and popped again). *)
Definition change_names (e : entry) (k : string) : option (list string) :=
  match dget String.eqb k (kwargs_change e) with
  | Some (TName n) => Some (if String.eqb n "" then [] else [n])
  | Some (TList ns) => Some ns
  | Some TNone => Some []
  | None => None
  end.
Definition change_rope (e : entry) (unuse : list string) (d : kwdict) : kwdict :=
  fold_left
    (fun acc kv =>
       match change_names e (fst kv) with
       | Some ns => fold_left (fun a n => dset String.eqb n (snd kv) a) ns acc
       | None =>
           let acc' := dset String.eqb (fst kv) (snd kv) acc in
           if mem_str (fst kv) unuse then ddel String.eqb (fst kv) acc' else acc'
       end) d [].
(** [for k in e: if k not in d: d[k] = e[k]] *)
Definition add_missing (d e : kwdict) : kwdict :=
  fold_left (fun acc kv => if dmem String.eqb (fst kv) acc then acc
                           else dset String.eqb (fst kv) (snd kv) acc) e d.
(** base.py:497-509 [set_paddle_default_kwargs] *)
Definition default_ropes (e : entry) : kwdict :=
  map (fun kv => (fst kv, lit (snd kv))) (paddle_default_kwargs e).
(** api_matcher.py:2991-2995 and 5592-5598 *)
Definition rename_key (r : list (string * string)) (k : string) : string :=
  match dget String.eqb k r with Some n => n | None => k end.
Definition rename_into (r : list (string * string)) (d e : kwdict) : kwdict :=
  fold_left (fun acc kv => dset String.eqb (rename_key r (fst kv)) (snd kv) acc) e d.

(** [str.format]: the literal parts around the holes "{}"; "{{" and "}}" are
    escapes; anything else with a brace is not used by the modelled templates. *)
Fixpoint holes (s : string) (cur : string) : option (list string) :=
  match s with
  | EmptyString => Some [cur]
  | String c r =>
      if Ascii.eqb c "{" then
        match r with
        | String d r' =>
            if Ascii.eqb d "}" then
              match holes r' "" with Some l => Some (cur :: l) | None => None end
            else if Ascii.eqb d "{" then holes r' (cur ++ "{") else None
        | EmptyString => None
        end
      else if Ascii.eqb c "}" then
        match r with
        | String d r' => if Ascii.eqb d "}" then holes r' (cur ++ "}") else None
        | EmptyString => None
        end
      else holes r (cur ++ String c EmptyString)
  end.
Fixpoint fill (parts : list string) (args : list rope) : outcome rope :=
  match parts with
  | [] => Ret []
  | [p] => Ret [MkPiece [] p]
  | p :: ps =>
      match args with
      | [] => Fail "IndexError"
      | a :: l => run* r := fill ps l in Ret (MkPiece [] p :: a ++ r)%list
      end
  end.
(** Templates are literals: a template holding the text of an argument is not
    modelled (its braces would be read as holes). *)
Definition format (t : value) (args : list rope) : outcome rope :=
  match t with
  | Text r =>
      match origins r with
      | [] => match holes (render r) "" with
              | Some ps => fill ps args
              | None => Fail "ValueError"
              end
      | _ => Fail "unmodelled"
      end
  | _ => Fail "AttributeError"
  end.

Definition upd_vars v (s : state) := MkState v (dicts s) (self_api s) (counters s) (utils s).
Definition upd_dict d v (s : state) :=
  MkState (vars s) (dset String.eqb d v (dicts s)) (self_api s) (counters s) (utils s).
Definition get_dict (d : string) (s : state) : outcome kwdict :=
  match dget String.eqb d (dicts s) with Some v => Ret v | None => Fail "UnboundLocalError" end.

Section Run.
  Variable c : ctx.

  Fixpoint eval (e : exp) (s : state) : outcome (value * state) :=
    match e with
    | ELit t => Ret (Text (lit t), s)
    | EVar x => match dget String.eqb x (vars s) with
                | Some v => Ret (v, s)
                | None => Fail "UnboundLocalError"
                end
    | EClass => match receiver c with
                | Some r => Ret (Text (receiver_piece r), s)
                | None => Fail "AttributeError"
                end
    | EApi => run* v := get_paddle_api c s in Ret (v, s)
    | ETorch => Ret (Text (lit (torch_api c)), s)
    | EGet d k =>
        run* v := get_dict d s in
        match dget String.eqb k v with Some r => Ret (Text r, s) | None => Fail "KeyError" end
    | EPop d k =>
        run* v := get_dict d s in
        match dget String.eqb k v with
        | Some r => Ret (Text r, upd_dict d (ddel String.eqb k v) s)
        | None => Fail "KeyError"
        end
    | EGetOr d k e =>
        run* (w, s) := eval e s in
        run* v := get_dict d s in
        match dget String.eqb k v with Some r => Ret (Text r, s) | None => Ret (w, s) end
    | EPopOr d k e =>
        run* (w, s) := eval e s in
        run* v := get_dict d s in
        match dget String.eqb k v with
        | Some r => Ret (Text r, upd_dict d (ddel String.eqb k v) s)
        | None => Ret (w, s)
        end
    | EFormat t l =>
        run* (w, s) := eval t s in
        run* (vs, s) := evals l s in
        run* r := format w vs in Ret (Text r, s)
    | ECat a b =>
        run* (v, s) := eval a s in
        run* (w, s) := eval b s in
        match v, w with
        | Text x, Text y => Ret (Text (x ++ y)%list, s)
        | _, _ => Fail "TypeError"
        end
    | EStr f a =>
        run* (v, s) := eval a s in
        match v with
        | Text r => Ret (Text [MkPiece (origins r) (edit_text f (render r))], s)
        | _ => Fail "AttributeError"
        end
    | EKwargs d => run* v := get_dict d s in Ret (Text (join_kwargs v), s)
    | EUnique k =>
        let (i, n) := unique_name (counters s) k in
        Ret (Text (lit n), MkState (vars s) (dicts s) (self_api s) i (utils s))
    | EIf x a b =>
        run* (v, s) := eval x s in
        if truth v then eval a s else eval b s
    | ENone => Ret (NoneV, s)
    | EBool b => Ret (Bool b, s)
    | EIn k d => run* v := get_dict d s in Ret (Bool (dmem String.eqb k v), s)
    | EEmpty d => run* v := get_dict d s in Ret (Bool (match v with [] => true | _ => false end), s)
    | ETest t a =>
        run* (v, s) := eval a s in
        match v with
        | Text r => Ret (Bool (run_test t (render r)), s)
        | _ => match t with Is _ => Ret (Bool false, s) | _ => Fail "TypeError" end
        end
    | EIsNone a =>
        run* (v, s) := eval a s in
        Ret (Bool (match v with NoneV => true | _ => false end), s)
    | ENot a => run* (v, s) := eval a s in Ret (Bool (negb (truth v)), s)
    | EAnd a b => run* (v, s) := eval a s in if truth v then eval b s else Ret (v, s)
    | EOr a b => run* (v, s) := eval a s in if truth v then Ret (v, s) else eval b s
    | ETarget k => Ret (Bool (is_target k (row_of c)), s)
    | EConvert k => Ret (Bool (mem_str k (convert_tensor c)), s)
    | EGenerate b d =>
        run* v := get_dict d s in
        run* (w, s') := exec b (MkState [] [("kwargs", v)] (self_api s) (counters s) (utils s)) in
        Ret (match w with Some x => x | None => NoneV end,
             MkState (vars s) (dicts s) (self_api s') (counters s') (utils s'))
    end
  with evals (l : exps) (s : state) : outcome (list rope * state) :=
    match l with
    | Nil => Ret ([], s)
    | Cons e r =>
        run* (v, s) := eval e s in
        run* (vs, s) := evals r s in
        Ret (show v :: vs, s)
    end
  with step (t : stmt) (s : state) : outcome (option value * state) :=
    match t with
    | SLet x e => run* (v, s) := eval e s in Ret (None, upd_vars (dset String.eqb x v (vars s)) s)
    | SSet d k e =>
        run* (v, s) := eval e s in
        run* w := get_dict d s in
        Ret (None, upd_dict d (dset String.eqb k (show v) w) s)
    | SDo e => run* (_, s) := eval e s in Ret (None, s)
    | SNew d => Ret (None, upd_dict d [] s)
    | SCopy d e => run* v := get_dict e s in Ret (None, upd_dict d v s)
    | SUpdate d e =>
        run* v := get_dict d s in run* w := get_dict e s in
        Ret (None, upd_dict d (dupdate String.eqb v w) s)
    | SMissing d e =>
        run* v := get_dict d s in run* w := get_dict e s in
        Ret (None, upd_dict d (add_missing v w) s)
    | SRename d e r =>
        run* v := get_dict d s in run* w := get_dict e s in
        Ret (None, upd_dict e [] (upd_dict d (rename_into r v w) s))
    | SChange d e unuse =>
        run* v := get_dict e s in
        Ret (None, upd_dict d (change_rope (row_of c) unuse v) s)
    | SDefaults d =>
        run* v := get_dict d s in
        Ret (None, upd_dict d (add_missing v (default_ropes (row_of c))) s)
    | SUtils => Ret (None, MkState (vars s) (dicts s) (self_api s) (counters s) true)
    | SApi e =>
        run* (v, s) := eval e s in
        match v with
        | Text r => Ret (None, MkState (vars s) (dicts s) (Some r) (counters s) (utils s))
        | _ => Fail "unmodelled"
        end
    | SIf x a b => run* (v, s) := eval x s in exec (if truth v then a else b) s
    | SReturn e => run* (v, s) := eval e s in Ret (Some v, s)
    end
  with exec (b : block) (s : state) : outcome (option value * state) :=
    match b with
    | Done => Ret (None, s)
    | Seq t r =>
        run* (w, s) := step t s in
        match w with Some v => Ret (Some v, s) | None => exec r s end
    end.

  (** Result of [generate_code] as [get_paddle_nodes] reads it (base.py:565-577). *)
  Inductive generated := Converted (r : rope) (helpers : bool) | Misidentify | Unchange | Refused.

  (** base.py:568-576, on the dictionary [parse_args_and_kwargs] returns.  The key [None]
      (see C53) is represented by the text it prints as, which no keyword can have. *)
  Definition start (t : table) : kwdict :=
    map (fun kv => match fst kv with
                   | Some k => (k, [MkPiece [Argument k] (snd kv)])
                   | None => ("None", [MkPiece [] (snd kv)])
                   end) t.
  Definition generate (b : block) (t : table) (i : ids) : outcome generated :=
    run* (w, s) := exec b (MkState [] [("kwargs", start t)] (initial_api c) i false) in
    match w with
    | Some (Text r) =>
        if String.eqb (render r) "misidentify" then Ret Misidentify
        else if String.eqb (render r) "unchange" then Ret Unchange
        else if String.eqb (render r) "" then Ret Refused
        else Ret (Converted r (utils s))
    | Some (Bool true) => Fail "TypeError"
    | _ => Ret Refused
    end.
End Run.
