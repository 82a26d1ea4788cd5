(** Words for C140: results that a caller wants in a tuple of their own. *)
From Verif Require Import PyStr PyDict.

Definition ordinal (k : nat) : string := match k with 0 => "0" | 1 => "1" | 2 => "2" | _ => "?" end.
(** The results [r] are assigned to the elements of [o] in order, from number [k] on. *)
Fixpoint handed (into o : string) (k : nat) (r : list string) : string :=
  match r with
  | [] => ""
  | [x] => "paddle.assign(" ++ x ++ ", " ++ into ++ o ++ "[" ++ ordinal k ++ "])"
  | x :: l => "paddle.assign(" ++ x ++ ", " ++ into ++ o ++ "[" ++ ordinal k ++ "]), " ++ handed into o (S k) l
  end.
Fixpoint listed (l : list string) : string :=
  match l with [] => "" | [x] => x | x :: r => x ++ ", " ++ listed r end.
(** Lines of code behind a line end each. *)
Fixpoint lines (l : list string) : string :=
  match l with [] => String nl "" | x :: r => String nl x ++ lines r end.
