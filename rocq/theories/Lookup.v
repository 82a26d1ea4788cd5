(** Looking a dotted API name up in the shipped tables (basic_transformer.py:762-838,
    base.py:245-273) and the name generated by prefix change (api_matcher.py:367-378).
    The tables themselves are the generated module [TablesData].  Definitions only. *)
From Verif Require Import PyStr PyDict Args TablesData.

(** [d[name]] for a table of rows. *)
Fixpoint find_row (n : string) (t : list row) : option row :=
  match t with
  | [] => None
  | r :: t' => if String.eqb n (r_name r) then Some r else find_row n t'
  end.

(** [re.match(pattern, s)] for the shipped wildcard keys.  Simplification: a pattern
    made of ordinary characters, "." (any character but a newline) and a final ".*";
    api_wildcard_mapping.json contains no other pattern. *)
Fixpoint re_match (pat s : string) : bool :=
  match pat with
  | EmptyString => true
  | String p pr =>
      if Ascii.eqb p "."%char then
        if String.eqb pr "*" then true
        else match s with
             | EmptyString => false
             | String c r => negb (Ascii.eqb c nl) && re_match pr r
             end
      else match s with
           | EmptyString => false
           | String c r => Ascii.eqb p c && re_match pr r
           end
  end.

(** The last wildcard entry that matches (basic_transformer.py:796-798, 823-827: the
    loop overwrites, it does not stop). *)
Definition last_wildcard (n : string) : option row :=
  fold_left (fun acc r => if re_match (r_name r) n then Some r else acc) wildcard_mapping None.
(** The first one (base.py:255-258, 264-267: the loop breaks). *)
Definition first_wildcard (n : string) : option row :=
  find (fun r => re_match (r_name r) n) wildcard_mapping.

(** base.py:245-246 [get_canonical_torch_api]; also the alias step of every lookup. *)
Definition canonical (n : string) : string :=
  match dget String.eqb n alias_mapping with Some t => t | None => n end.

(** Result of [get_api_matcher]: the [assert] fails, [eval] of the matcher's class name
    fails, no matcher, or a matcher object built for the canonical name. *)
Inductive lookup :=
| LAssert
| LNameError
| LNone
| LMatcher (torch_api matcher : string) (r : row).

(** basic_transformer.py:799-806, 828-837. *)
Definition make_matcher (n : string) (r : option row) : lookup :=
  match r with
  | None => LNone
  | Some r =>
      if r_disable r then LNone
      else match r_matcher r with
           | None => LNone
           | Some m => if mem_str m matcher_classes then LMatcher n m r else LNameError
           end
  end.

(** basic_transformer.py:785-806 (table = api_mapping), 815-838 (attribute_mapping). *)
Definition get_matcher (t : list row) (n : string) : lookup :=
  if dmem String.eqb n alias_mapping
     && match find_row n t with Some _ => true | None => false end
  then LAssert
  else
    let n' := canonical n in
    make_matcher n' (match find_row n' t with
                     | Some r => Some r
                     | None => last_wildcard n'
                     end).
Definition get_api_matcher (n : string) : lookup := get_matcher api_mapping n.
Definition get_attribute_matcher (n : string) : lookup := get_matcher attribute_mapping n.

(** basic_transformer.py:132-139: both lookups, in this order, then the assertion that
    not both succeeded, then [attribute_matcher or api_matcher]. *)
Definition attribute_lookup (n : string) : lookup :=
  match get_attribute_matcher n, get_api_matcher n with
  | LAssert, _ => LAssert
  | LNameError, _ => LNameError
  | _, LAssert => LAssert
  | _, LNameError => LNameError
  | LMatcher _ _ _, LMatcher _ _ _ => LAssert
  | LNone, m => m
  | m, LNone => m
  end.

(** basic_transformer.py:808-813. *)
Definition in_attribute_mapping (n : string) : bool :=
  match find_row (canonical n) attribute_mapping with Some _ => true | None => false end.
(** basic_transformer.py:774-783. *)
Definition in_api_mapping (n : string) : bool :=
  match find_row (canonical n) api_mapping with
  | Some _ => true
  | None => existsb (fun r => re_match (r_name r) (canonical n)) wildcard_mapping
  end.

(** The JSON object is empty, hence false in a condition. *)
Definition empty_row (r : row) : bool :=
  match r_matcher r, r_disable r, r_abstract r, r_entry r with
  | None, false, false, MkEntry [] [] 0 [] [] [] None => true
  | _, _, _, _ => false
  end.
(** base.py:259-260, 268-269: [if mapping and "disable" not in mapping], then
    [mapping.get("Matcher")].  [None] stands for falling through. *)
Definition usable_matcher (r : option row) : option (option string) :=
  match r with
  | None => None
  | Some r => if empty_row r || r_disable r then None else Some (r_matcher r)
  end.
(** base.py:248-273. *)
Definition is_prefix_matcher (m : option string) : bool :=
  match m with Some m => String.eqb m "ChangePrefixMatcher" | None => false end.
Definition in_min_mode (min : bool) (n : string) : bool :=
  if negb min then false
  else
    let n' := canonical n in
    let from t := match find_row n' t with Some r => Some r | None => first_wildcard n' end in
    match usable_matcher (from api_mapping) with
    | Some m => is_prefix_matcher m
    | None =>
        match usable_matcher (from attribute_mapping) with
        | Some m => is_prefix_matcher m
        | None => false
        end
    end.

(** [s.split(".", maxsplit=1)[0]] *)
Definition first_component (s : string) : string := nth 0 (split_on "."%char s) "".

(** api_matcher.py:367-378.  [None]: the assertion fails. *)
Definition change_prefix_name (min : bool) (torch_api origin_attr : string) : option string :=
  if min then Some origin_attr
  else
    match dget String.eqb (first_component torch_api) torch_package_mapping with
    | None => None
    | Some p => Some (py_replace torch_api (first_component torch_api) p)
    end.

(** The assertions of [get_paddle_api] in GenericMatcher (api_matcher.py:95-97),
    ChangeAPIMatcher (412-418), ChangePrefixMatcher (367-378, default mode) for a row
    found under its canonical name: does [get_paddle_api] return?  Other matchers inherit
    base.py:538-552, which asserts nothing.  Simplification: "key in dict" is read as
    "non-empty field"; the shipped rows have no empty such field. *)
Definition get_paddle_api_returns (n matcher : string) (e : entry) : bool :=
  let has := match paddle_api e with Some _ => true | None => false end in
  if String.eqb matcher "GenericMatcher" then has
  else if String.eqb matcher "ChangeAPIMatcher" then
    has && match unsupport_args e, kwargs_change e, paddle_default_kwargs e with
           | [], [], [] => true
           | _, _, _ => false
           end
  else if String.eqb matcher "ChangePrefixMatcher" then
    match change_prefix_name false n n with Some _ => true | None => false end
  else true.
