(** Python [str] operations used by the modelled code.

    A Python string is a Coq [string] (sequence of 8-bit characters); see
    DESIGN.md for what this abstracts.  Definitions only, no proofs. *)
From Coq Require Export String Ascii List Bool Arith ZArith.
Export ListNotations.
Open Scope string_scope.

(** Python [s.startswith(p)]. *)
Definition startswith (s p : string) : bool := prefix p s.

(** Python [sub in s]. *)
Fixpoint contains (sub s : string) : bool :=
  prefix sub s ||
  match s with
  | EmptyString => false
  | String _ r => contains sub r
  end.

(** Python [s.replace(old, new)] for a non-empty [old]: left-to-right,
    non-overlapping.  [skip] counts the characters of a match still to drop. *)
Fixpoint replace_aux (old new : string) (skip : nat) (s : string) : string :=
  match s with
  | EmptyString => EmptyString
  | String c r =>
      match skip with
      | S k => replace_aux old new k r
      | O => if prefix old s
             then new ++ replace_aux old new (pred (String.length old)) r
             else String c (replace_aux old new 0 r)
      end
  end.
Definition py_replace (s old new : string) : string := replace_aux old new 0 s.

(** Python [s.split(sep)] for a one-character [sep]; never returns []. *)
Fixpoint split_on (sep : ascii) (s : string) : list string :=
  match s with
  | EmptyString => [EmptyString]
  | String c r =>
      if Ascii.eqb c sep then EmptyString :: split_on sep r
      else match split_on sep r with
           | [] => [String c EmptyString]
           | h :: t => String c h :: t
           end
  end.

(** Python [sep.join(l)]. *)
Definition join (sep : string) (l : list string) : string := String.concat sep l.

Definition nl : ascii := "010"%char.
Definition nls : string := String nl EmptyString.
Definition quote2 : ascii := "034"%char.
Definition quote1 : ascii := "039"%char.

(** Python [s.count(sub)] for a non-empty [sub]: non-overlapping. *)
Fixpoint count_aux (sub : string) (skip : nat) (s : string) : nat :=
  match s with
  | EmptyString => 0
  | String _ r =>
      match skip with
      | S k => count_aux sub k r
      | O => if prefix sub s then S (count_aux sub (pred (String.length sub)) r)
             else count_aux sub 0 r
      end
  end.
Definition py_count (s sub : string) : nat := count_aux sub 0 s.

Definition in_range (lo hi : nat) (c : ascii) : bool :=
  let n := nat_of_ascii c in (lo <=? n)%nat && (n <=? hi)%nat.

(** ASCII part of [\w]. *)
Definition is_word (c : ascii) : bool :=
  in_range 48 57 c || in_range 65 90 c || in_range 97 122 c || Ascii.eqb c "_"%char.

(** ASCII part of [str.isspace] / [\s]: tab, LF, VT, FF, CR, 0x1c-0x1f, space. *)
Definition is_space (c : ascii) : bool :=
  in_range 9 13 c || in_range 28 31 c || Ascii.eqb c " "%char.

(** [s.lstrip] / [s.rstrip] / [s.strip] with a character predicate. *)
Fixpoint lstrip_by (p : ascii -> bool) (s : string) : string :=
  match s with
  | EmptyString => EmptyString
  | String c r => if p c then lstrip_by p r else s
  end.
Fixpoint rstrip_by (p : ascii -> bool) (s : string) : string :=
  match s with
  | EmptyString => EmptyString
  | String c r =>
      match rstrip_by p r with
      | EmptyString => if p c then EmptyString else String c EmptyString
      | r' => String c r'
      end
  end.
Definition strip_by (p : ascii -> bool) (s : string) : string :=
  rstrip_by p (lstrip_by p s).

(** [s.strip()] *)
Definition py_strip (s : string) : string := strip_by is_space s.
Definition py_rstrip (s : string) : string := rstrip_by is_space s.

(** [c in chars] for [strip(chars)]. *)
Fixpoint mem_char (c : ascii) (s : string) : bool :=
  match s with
  | EmptyString => false
  | String d r => Ascii.eqb c d || mem_char c r
  end.

(** [s.endswith(p)]. *)
Fixpoint endswith (s p : string) : bool :=
  String.eqb s p ||
  match s with
  | EmptyString => false
  | String _ r => endswith r p
  end.

(** Membership of a string in a list ([in] on a list/set of strings). *)
Definition mem_str (x : string) (l : list string) : bool :=
  existsb (String.eqb x) l.

(** Decimal rendering of a natural number ([str(n)]). *)
Definition digit (n : nat) : ascii := ascii_of_nat (48 + n).
Fixpoint nat_to_str_aux (fuel n : nat) (acc : string) : string :=
  match fuel with
  | O => acc
  | S f =>
      let acc' := String (digit (n mod 10)) acc in
      if (n <? 10)%nat then acc' else nat_to_str_aux f (n / 10) acc'
  end.
Definition nat_to_str (n : nat) : string := nat_to_str_aux (S n) n "".

(** [s[:s.rfind(".")]] and friends: split at the last occurrence of a char.
    [None] when absent. *)
Fixpoint rsplit1 (sep : ascii) (s : string) : option (string * string) :=
  match s with
  | EmptyString => None
  | String c r =>
      match rsplit1 sep r with
      | Some (a, b) => Some (String c a, b)
      | None => if Ascii.eqb c sep then Some (EmptyString, r) else None
      end
  end.

(** [str.splitlines()]: boundaries LF, CR, CR LF, VT, FF, FS, GS, RS (ASCII part);
    no trailing empty line. *)
Definition is_linebreak (c : ascii) : bool :=
  in_range 10 13 c || in_range 28 30 c.
Fixpoint splitlines (s : string) : list string :=
  match s with
  | EmptyString => []
  | String c r =>
      if is_linebreak c then
        match r with
        | String d r' =>
            if Ascii.eqb c "013"%char && Ascii.eqb d "010"%char
            then EmptyString :: splitlines r'
            else EmptyString :: splitlines r
        | EmptyString => [EmptyString]
        end
      else match splitlines r with
           | [] => [String c EmptyString]
           | h :: t => String c h :: t
           end
  end.
