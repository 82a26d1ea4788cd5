(** What it means that a file is UTF-8 text, and which text it is.  Definitions only; nothing
    here refers to the model of the reader. *)
From Coq Require Import NArith List.
From Verif Require Import PyStr.
Import ListNotations.
Open Scope N_scope.

(** Unicode scalar values. *)
Definition scalar (n : N) : Prop := n < 55296 \/ (57344 <= n /\ n < 1114112).
Fixpoint bytes_of (l : list N) : string :=
  match l with [] => EmptyString | n :: l => String (ascii_of_N n) (bytes_of l) end.
(** The UTF-8 form of a scalar value (RFC 3629). *)
Definition encoding (n : N) : string := bytes_of (
  if n <? 128 then [n]
  else if n <? 2048 then [192 + n / 64; 128 + n mod 64]
  else if n <? 65536 then [224 + n / 4096; 128 + (n / 64) mod 64; 128 + n mod 64]
  else [240 + n / 262144; 128 + (n / 4096) mod 64; 128 + (n / 64) mod 64; 128 + n mod 64]).
Fixpoint encodings (l : list N) : string :=
  match l with [] => EmptyString | n :: l => (encoding n ++ encodings l)%string end.
(** [encoded bytes]: the bytes are the UTF-8 form of some text. *)
Definition encoded (bytes : string) : Prop := exists l, Forall scalar l /\ bytes = encodings l.

(** [lines_of bytes text]: the same lines, each ended by a line feed instead of a carriage
    return, a line feed, or both. *)
Inductive lines_of : string -> string -> Prop :=
| lines_end : lines_of "" ""
| lines_both s t : lines_of s t -> lines_of (String "013" (String "010" s)) (String "010" t)
| lines_return s t : (forall r, s <> String "010" r) -> lines_of s t -> lines_of (String "013" s) (String "010" t)
| lines_char a s t : a <> "013"%char -> lines_of s t -> lines_of (String a s) (String a t).

(** [reads_text bytes text]: a file with these bytes, read as UTF-8 text, is [text]. *)
Definition reads_text (bytes text : string) : Prop := encoded bytes /\ lines_of bytes text.
