(** Model of [Converter.mark_unsupport] and [Converter.mask_change_prefix_apis]
    (paconvert/converter.py:463-546).  Definitions only. *)
From Verif Require Import PyStr.

Definition marker : string := ">>>>>>".
Definition annotation : string := "Not Support auto convert".

(** Drop the first [n] characters ([s[n:]]). *)
Fixpoint drop (n : nat) (s : string) : string :=
  match n, s with
  | O, _ => s
  | S k, EmptyString => EmptyString
  | S k, String _ r => drop k r
  end.

(** Length of the maximal run of characters different from [q] ([[^q]*]). *)
Fixpoint run_len (q : ascii) (s : string) : nat :=
  match s with
  | EmptyString => 0
  | String c r => if Ascii.eqb c q then 0 else S (run_len q r)
  end.

(** Length of a match of the pattern [d[^q]+d] at the start of [s], where [d]
    consists of copies of [q].  The run of non-[q] characters is maximal, so
    regex backtracking cannot find another match. *)
Definition quoted_len (q : ascii) (d s : string) : option nat :=
  if prefix d s then
    let rest := drop (String.length d) s in
    let n := run_len q rest in
    if (1 <=? n)%nat && prefix d (drop n rest)
    then Some (String.length d + n + String.length d)%nat
    else None
  else None.

(** [re.sub(r"d[^q]+d", "", s)]. *)
Fixpoint rm_quoted_aux (q : ascii) (d : string) (skip : nat) (s : string) : string :=
  match s with
  | EmptyString => EmptyString
  | String c r =>
      match skip with
      | S k => rm_quoted_aux q d k r
      | O => match quoted_len q d s with
             | Some n => rm_quoted_aux q d (pred n) r
             | None => String c (rm_quoted_aux q d 0 r)
             end
      end
  end.
Definition rm_quoted (q : ascii) (d s : string) : string := rm_quoted_aux q d 0 s.

Definition q3 : string := String quote2 (String quote2 (String quote2 "")).
Definition q1d : string := String quote2 "".
Definition q1s : string := String quote1 "".

(** converter.py:513-515: the three [re.sub] calls. *)
Definition rm_literals (s : string) : string :=
  rm_quoted quote1 q1s (rm_quoted quote2 q1d (rm_quoted quote2 q3 s)).

(** converter.py:542: [re.match(r".*[^\w\.]{1}%s\." % pkg, line)].  The lines
    scanned contain no newline, so [.*] reaches every position; the package
    names are the keys of [TORCH_PACKAGE_MAPPING], which contain no regex
    metacharacter. *)
Fixpoint boundary_use (pkg s : string) : bool :=
  match s with
  | EmptyString => false
  | String c r =>
      (negb (is_word c) && negb (Ascii.eqb c "."%char) && prefix (pkg ++ ".") r)
      || boundary_use pkg r
  end.

(** converter.py:533-544: the loop over [imports_map[file]["torch_packages"]]
    (a set, any iteration order: a list here). *)
Definition uses_package (pkgs : list string) (s : string) : bool :=
  existsb (fun p => startswith s (p ++ ".") || boundary_use p s) pkgs.

Record mstate := MS { mark_next : bool; in_str : bool }.

(** One iteration of converter.py:494-544.  [scan] is [scan_lines[i]]; [None]
    stands for an index past the end (IndexError), which is reported as
    [None]. *)
Definition mark_step (min : bool) (pkgs : list string) (st : mstate)
    (line : string) (scan : option string) : option (mstate * string) :=
  if contains annotation line then Some (MS true (in_str st), line)
  else if mark_next st && negb (String.eqb line "@")
  then Some (MS false (in_str st), marker ++ line)
  else
    match scan with
    | None => None
    | Some sc =>
        let rm := rm_literals sc in
        let now := xorb (in_str st) (Nat.odd (py_count rm q3)) in
        let st' := MS (mark_next st) now in
        if in_str st || now then Some (st', line)
        else if min && (startswith (py_strip rm) "import " || startswith (py_strip rm) "from ")
        then Some (st', line)
        else if uses_package pkgs rm then Some (st', marker ++ line)
        else Some (st', line)
    end.

Fixpoint mark_lines (min : bool) (pkgs : list string) (st : mstate)
    (lines scans : list string) : option (list string) :=
  match lines with
  | [] => Some []
  | l :: ls =>
      let (sc, scs) := match scans with
                       | [] => (None, [])
                       | x :: xs => (Some x, xs)
                       end in
      match mark_step min pkgs st l sc with
      | None => None
      | Some (st', l') =>
          match mark_lines min pkgs st' ls scs with
          | None => None
          | Some r => Some (l' :: r)
          end
      end
  end.

(** converter.py:466-476 [_mask_match], one character. *)
Definition mask_char (c : ascii) : ascii :=
  if Ascii.eqb c nl then nl else if is_space c then c else "_"%char.

(** [pattern.sub(_mask_match, text)]; [m prev s] is the length of a match of the
    pattern starting at [s] when the previous character is [prev] (used by the
    look-behind), if any. *)
Fixpoint mask_aux (m : option ascii -> string -> option nat)
    (prev : option ascii) (skip : nat) (s : string) : string :=
  match s with
  | EmptyString => EmptyString
  | String c r =>
      match skip with
      | S k => String (mask_char c) (mask_aux m (Some c) k r)
      | O => match m prev s with
             | Some (S n) => String (mask_char c) (mask_aux m (Some c) n r)
             | _ => String c (mask_aux m (Some c) 0 r)
             end
      end
  end.

Fixpoint spaces (s : string) : nat :=
  match s with
  | EmptyString => 0
  | String c r => if is_space c then S (spaces r) else 0
  end.

(** [re.escape(api).replace(r"\.", r"\s*\.\s*")] for the components of [api]. *)
Fixpoint match_comps (comps : list string) (s : string) : option nat :=
  match comps with
  | [] => Some 0
  | [c] => if prefix c s then Some (String.length c) else None
  | c :: cs =>
      if prefix c s then
        let s1 := drop (String.length c) s in
        let n1 := spaces s1 in
        match drop n1 s1 with
        | String d s3 =>
            if Ascii.eqb d "."%char then
              let n2 := spaces s3 in
              match match_comps cs (drop n2 s3) with
              | Some k => Some (String.length c + n1 + 1 + n2 + k)%nat
              | None => None
              end
            else None
        | EmptyString => None
        end
      else None
  end.

Definition wordish (c : ascii) : bool := is_word c || Ascii.eqb c "."%char.

(** The whole pattern [(?<![\w\.])api(?![\w\.])]. *)
Definition match_api (api : string) (prev : option ascii) (s : string) : option nat :=
  if match prev with Some c => wordish c | None => false end then None
  else match match_comps (split_on "."%char api) s with
       | Some n => match drop n s with
                   | String c _ => if wordish c then None else Some n
                   | EmptyString => Some n
                   end
       | None => None
       end.

Definition mask_one (text api : string) : string := mask_aux (match_api api) None 0 text.

(** [mask_change_prefix_apis]; [keep] is the list in the (length-sorted) order
    in which the loop of line 478 runs. *)
Definition mask_apis (keep : list string) (text : string) : string :=
  fold_left mask_one keep text.

(** [mark_unsupport]; [None] = IndexError. *)
Definition mark_unsupport (min : bool) (pkgs keep : list string) (code : string) : option string :=
  let scan_code := if min then mask_apis keep code else code in
  match mark_lines min pkgs (MS false false) (split_on nl code) (split_on nl scan_code) with
  | Some ls => Some (join nls ls)
  | None => None
  end.
