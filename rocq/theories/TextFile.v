(** Model of how the contents of a file become a Python string: [open(path, "r",
    encoding="UTF-8")] and [read] (converter.py:369-370, 421-422).  Definitions only.  A file
    is its bytes; a Python string is kept as the bytes of its UTF-8 encoding, so decoding
    either fails or changes nothing. *)
From Coq Require Import NArith.
From Verif Require Import PyStr Ast.
Open Scope N_scope.

Definition within (lo hi : N) (c : ascii) : bool := (lo <=? N_of_ascii c) && (N_of_ascii c <=? hi).
(** The decoder of converter.py:369, 421 is CPython's strict UTF-8: no overlong forms, no
    surrogates, nothing beyond U+10FFFF. *)
Fixpoint utf8 (s : string) : bool :=
  match s with
  | EmptyString => true
  | String a r =>
      if within 0 127 a then utf8 r
      else match r with
      | EmptyString => false
      | String b r =>
          if within 194 223 a then within 128 191 b && utf8 r
          else match r with
          | EmptyString => false
          | String c r =>
              if within 224 239 a
              then within (if N_of_ascii a =? 224 then 160 else 128) (if N_of_ascii a =? 237 then 159 else 191) b && within 128 191 c && utf8 r
              else match r with
              | EmptyString => false
              | String d r =>
                  within 240 244 a && within (if N_of_ascii a =? 240 then 144 else 128) (if N_of_ascii a =? 244 then 143 else 191) b
                  && within 128 191 c && within 128 191 d && utf8 r
              end
          end
      end
  end.

Definition cr : ascii := "013".
Definition lf : ascii := "010".
(** Text mode translates the line ends "\r\n" and "\r" into "\n" (the [newline=None] of
    converter.py:369, 421). *)
Fixpoint newlines (s : string) : string :=
  match s with
  | EmptyString => EmptyString
  | String a r =>
      if Ascii.eqb a cr
      then String lf (match r with
        | String b r' => if Ascii.eqb b lf then newlines r' else newlines r
        | EmptyString => EmptyString
        end)
      else String a (newlines r)
  end.

(** converter.py:369-370, 421-422. *)
Definition read_text (bytes : string) : res string :=
  if utf8 bytes then Ok (newlines bytes) else Raise "UnicodeDecodeError".
