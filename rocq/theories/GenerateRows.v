(** Code generation for the rows of api_mapping.json whose matcher class is listed in
    [generators].  Definitions only. *)
From Verif Require Import PyStr PyDict UtilsFile Args TablesData Generate GenerateData.

(** The method of the row's class.  "abstract" rows (base.py:544-549) and disabled
    rows are left out. *)
Definition generator (r : row) : option (bool * block) :=
  if r_disable r || r_abstract r then None
  else match r_matcher r with
       | Some m => dget String.eqb m generators
       | None => None
       end.

(** base.py:327-334 [BaseMatcher.__init__], and [parse_func] for a method call. *)
Definition context_of (r : row) (s : bool) (recv : option string) : ctx :=
  MkCtx (r_entry r) (r_name r) recv
        (match dget String.eqb (r_name r) convert_tensors with Some l => l | None => [] end) s.

(** base.py:565-581: [get_paddle_nodes] ([recv] is [None]) and
    [get_paddle_class_nodes] ([recv] is the text of the receiver). *)
Definition paddle_nodes (r : row) (g : bool * block) (recv : option string)
  (args : list expr) (kwargs : list kwnode) (i : ids) : outcome generated :=
  match fst (parse_args_and_kwargs (r_entry r) false false args kwargs) with
  | Bound t => generate (context_of r (fst g) recv) (snd g) t i
  | Unsupported => Ret Refused
  | Misidentified => Ret Misidentify
  | IndexError => Fail "IndexError"
  end.
(** The counters of [get_unique_name] it leaves (paconvert/utils.py:23-36); an exception
    leaves counters that are not modelled, nothing is said about them. *)
Definition paddle_counters (r : row) (g : bool * block) (recv : option string)
  (args : list expr) (kwargs : list kwnode) (i : ids) : ids :=
  match fst (parse_args_and_kwargs (r_entry r) false false args kwargs) with
  | Bound t =>
      match exec (context_of r (fst g) recv) (snd g)
              (MkState [] [("kwargs", start t)] (initial_api (context_of r (fst g) recv)) i false) with
      | Ret (_, s) => counters s
      | Fail _ => i
      end
  | _ => i
  end.
