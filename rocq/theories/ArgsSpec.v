(** Independent vocabulary for the argument properties C20-C27, C46, C47, C52, C53. *)
From Verif Require Import PyStr PyDict Args.

(** A keyword argument that names an unsupported parameter. *)
Definition names_unsupported (e : entry) (n : kwnode) : Prop :=
  exists k, kw_arg n = Some k /\ In k (unsupport_args e).
(** ... and passes the literal [None]. *)
Definition harmless (e : entry) (n : kwnode) : Prop :=
  names_unsupported e n /\ e_none (kw_value n) = true.
(** ... or passes anything else. *)
Definition forbidden (e : entry) (n : kwnode) : Prop :=
  names_unsupported e n /\ e_none (kw_value n) = false.

(** [sub] is [l] without some elements, all of which satisfy [P]. *)
Inductive without {A} (P : A -> Prop) : list A -> list A -> Prop :=
| without_nil : without P [] []
| without_keep x l sub : without P l sub -> without P (x :: l) (x :: sub)
| without_drop x l sub : P x -> without P l sub -> without P (x :: l) sub.

(** The positional parameters of a signature "a, b, *, c": the names before the star
    (a leading star is ignored), the keyword-only ones: those after it. *)
Fixpoint before_star (l : list string) : list string :=
  match l with
  | [] => []
  | x :: r => if String.eqb x "*" then [] else x :: before_star r
  end.
Fixpoint after_star (l : list string) : list string :=
  match l with
  | [] => []
  | x :: r => if String.eqb x "*" then r else after_star r
  end.

(** What the call binds, in call order: the i-th positional argument to the i-th
    positional name, each keyword to its own name. *)
Definition bindings (names : list string) (args : list expr) (kwargs : list kwnode) : list (key * string) :=
  (combine (map Some names) (map text args) ++
   map (fun n => (kw_arg n, text (kw_value n))) kwargs)%list.

(** The value a key ends up with when bindings are made from left to right. *)
Definition last_binding (k : key) (b : list (key * string)) : option string :=
  dget key_eqb k (rev b).

(** New names of a keyword under a renaming table; [unuse] names are dropped. *)
Definition new_names (e : entry) (unuse : list string) (k : key) : list key :=
  match k with
  | None => [None]
  | Some x =>
      match dget String.eqb x (kwargs_change e) with
      | Some TNone => []
      | Some (TName n) => if String.eqb n "" then [] else [Some n]
      | Some (TList ns) => map Some ns
      | None => if mem_str x unuse then [] else [Some x]
      end
  end.
Definition renamed (e : entry) (unuse : list string) (t : table) : table :=
  flat_map (fun kv => map (fun n => (n, snd kv)) (new_names e unuse (fst kv))) t.

(** A keyword argument as it is written in a call. *)
Definition written (n : kwnode) : string :=
  match kw_arg n with
  | Some k => k ++ "=" ++ text (kw_value n)
  | None => "**" ++ text (kw_value n)
  end.
Definition named_in (l : list string) (n : kwnode) : bool :=
  match kw_arg n with Some k => mem_str k l | None => false end.

(** A python call as text. *)
Definition call (api : string) (arguments : list string) : string :=
  api ++ "(" ++ String.concat ", " arguments ++ ")".

(** ** A small reader for Python boolean expressions: names, [not], [and], [or] and
    parentheses, with Python's precedences.  Used only to say what generated text means. *)
Inductive bexp := BName (s : string) | BNot (a : bexp) | BAnd (a b : bexp) | BOr (a b : bexp).

Definition is_name_char (c : ascii) : bool := is_word c || Ascii.eqb c "."%char.
(** Tokens: maximal runs of name characters, and single other non-blank characters. *)
Fixpoint tokens_from (cur : string) (s : string) : list string :=
  let flush (r : list string) := if String.eqb cur "" then r else cur :: r in
  match s with
  | EmptyString => flush []
  | String c r =>
      if is_name_char c then tokens_from (cur ++ String c "") r
      else if is_space c then flush (tokens_from "" r)
      else flush (String c "" :: tokens_from "" r)
  end.
Definition tokens (s : string) : list string := tokens_from "" s.
Definition keyword (s : string) : bool := mem_str s ["not"; "and"; "or"].
Definition is_name (s : string) : bool :=
  negb (String.eqb s "") && negb (keyword s) &&
  forallb is_name_char (list_ascii_of_string s).

(** or_test := and_test ("or" and_test)*, and_test := not_test ("and" not_test)*,
    not_test := "not" not_test | atom, atom := name | "(" or_test ")". *)
Fixpoint read_or (fuel : nat) (ts : list string) : option (bexp * list string) :=
  match fuel with
  | O => None
  | S f =>
      match read_and f ts with
      | Some (a, "or" :: r) =>
          match read_or f r with Some (b, r') => Some (BOr a b, r') | None => None end
      | x => x
      end
  end
with read_and (fuel : nat) (ts : list string) : option (bexp * list string) :=
  match fuel with
  | O => None
  | S f =>
      match read_not f ts with
      | Some (a, "and" :: r) =>
          match read_and f r with Some (b, r') => Some (BAnd a b, r') | None => None end
      | x => x
      end
  end
with read_not (fuel : nat) (ts : list string) : option (bexp * list string) :=
  match fuel with
  | O => None
  | S f =>
      match ts with
      | "not" :: r => match read_not f r with Some (a, r') => Some (BNot a, r') | None => None end
      | "(" :: r =>
          match read_or f r with Some (a, ")" :: r') => Some (a, r') | _ => None end
      | w :: r => if is_name w then Some (BName w, r) else None
      | [] => None
      end
  end.
Definition read (s : string) : option bexp :=
  match read_or (4 * S (List.length (tokens s))) (tokens s) with
  | Some (b, []) => Some b
  | _ => None
  end.

(** Truth value, given the truth value of names. *)
Fixpoint truth (env : string -> bool) (b : bexp) : bool :=
  match b with
  | BName s => env s
  | BNot a => negb (truth env a)
  | BAnd a b => truth env a && truth env b
  | BOr a b => truth env a || truth env b
  end.

(** ** Generic conversion *)
(** [k=v] as written in a call. *)
Definition keyword_text (kv : key * string) : string :=
  match fst kv with Some k => k ++ "=" ++ snd kv | None => "None=" ++ snd kv end.

(** Defaults of the entry that the call does not give. *)
Definition missing_defaults (e : entry) (t : table) : table :=
  map (fun d => (Some (fst d), snd d))
      (filter (fun d => negb (existsb (fun kv => key_eqb (Some (fst d)) (fst kv)) t)) (paddle_default_kwargs e)).

(** The four names handled apart, unless the entry renames something to them. *)
Definition special_names (e : entry) : list string :=
  filter (fun n => negb (existsb (fun kv => match snd kv with TName m => String.eqb n m | _ => false end)
                                 (kwargs_change e)))
         ["dtype"; "pin_memory"; "requires_grad"; "out"].

Definition value_of (t : table) (n : string) : option string :=
  match find (fun kv => key_eqb (Some n) (fst kv)) t with Some kv => Some (snd kv) | None => None end.

(** What the generated code should be for final arguments [t]: a call with the
    ordinary ones; [dtype] as a cast, [pin_memory] as a method call unless it is the
    literal False, [requires_grad] as an assignment to [stop_gradient], [out] as an
    assignment to that variable. *)
Definition generic_text (e : entry) (api fresh : string) (t : table) : string :=
  let given n v0 := if mem_str n (special_names e) then
                      match value_of t n with
                      | Some v => if String.eqb v v0 then None else Some v
                      | None => None
                      end else None in
  let plain := filter (fun kv => negb (key_in (fst kv) (special_names e))) t in
  let value := call api (map keyword_text plain) ++
               match given "dtype" "None" with Some d => ".astype(" ++ d ++ ")" | None => "" end ++
               match given "pin_memory" "(False)" with Some _ => ".pin_memory()" | None => "" end in
  let negated g := "not " ++ strip_by (fun c => mem_char c "()") g in
  let grad := if mem_str "requires_grad" (special_names e) then value_of t "requires_grad" else None in
  match grad, given "out" "None" with
  | None, None => value
  | None, Some o => nls ++ "paddle.assign(" ++ value ++ ", output=" ++ o ++ ")" ++ nls
  | Some g, None => nls ++ fresh ++ " = " ++ value ++ nls ++ fresh ++ ".stop_gradient = " ++ negated g ++ nls ++ fresh ++ nls
  | Some g, Some o => nls ++ "paddle.assign(" ++ value ++ ", output=" ++ o ++ ")" ++ nls ++
                      o ++ ".stop_gradient = " ++ negated g ++ nls ++ o ++ nls
  end.

(** ** Legacy loss flags *)
(** How the two flags appear in an argument table ([astor] prints constants in
    parentheses). *)
Inductive flag_is : table -> string -> option bool -> Prop :=
| flag_absent t n : ~ In (Some n) (dkeys t) -> flag_is t n None
| flag_true t n : In (Some n, "(True)") t -> flag_is t n (Some true)
| flag_false t n : In (Some n, "(False)") t -> flag_is t n (Some false).

(** torch.nn._reduction.legacy_get_string *)
Definition legacy_reduction (size_average reduce : option bool) : string :=
  let sa := match size_average with Some b => b | None => true end in
  let rd := match reduce with Some b => b | None => true end in
  if sa && rd then "mean" else if rd then "sum" else "none".
