(** Model of the requirements branch of [Converter.transfer_file]. *)
From Verif Require Import PyStr.

(** paconvert/converter.py:416-424:
    [code = code.replace("torch", "paddlepaddle-gpu")]. *)
Definition convert_requirements (code : string) : string :=
  py_replace code "torch" "paddlepaddle-gpu".

(** Specification helpers (not code): the distribution name at the start of a
    requirement line, PEP 508 characters only. *)
Definition is_pkg_char (c : ascii) : bool :=
  is_word c || Ascii.eqb c "-"%char || Ascii.eqb c "."%char.
Fixpoint pkg_name (line : string) : string :=
  match line with
  | EmptyString => EmptyString
  | String c r => if is_pkg_char c then String c (pkg_name r) else EmptyString
  end.
