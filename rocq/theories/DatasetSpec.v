(** Words for C139: which part of a data set a call asks for.  Nothing here speaks about how
    code is generated. *)
From Verif Require Import PyStr PyDict Args.

(** [text] is [yes] if the condition holds and [no] otherwise: a conditional expression, or
    one of the two where the condition is a literal. *)
Definition decides (condition yes no text : string) : Prop :=
  (condition = "(True)" /\ text = yes) \/ (condition = "(False)" /\ text = no) \/
  text = yes ++ " if " ++ condition ++ " else " ++ no.
(** [text] is the name Paddle has for the part [split]: "valid" instead of "val".  A literal
    has three quotes. *)
Definition renames (split text : string) : Prop :=
  (split = """""""val""""""" /\ text = "'valid'") \/ (split = """""""test""""""" /\ text = "'test'") \/
  (split = """""""train""""""" /\ text = "'train'") \/ text = split ++ " if " ++ split ++ " != 'val' else 'valid'".
(** A file below the directory [root]. *)
Definition below (root file : string) : string := "os.path.join(" ++ root ++ ", '" ++ file ++ "')".
(** A call with keyword arguments. *)
Fixpoint commas (l : list (string * string)) : string :=
  match l with
  | [] => ""
  | [(k, v)] => k ++ "=" ++ v
  | (k, v) :: r => k ++ "=" ++ v ++ ", " ++ commas r
  end.
Definition call_of (f : string) (l : list (string * string)) : string := f ++ "(" ++ commas l ++ ")".
(** The arguments [l] of a call: those of [given] without [dropped], and [new] ones, which
    replace those of the same name. *)
Definition made_of (l : list (string * string)) (given : table) (dropped : list string) (new : list (string * string)) : Prop :=
  NoDup (map fst l) /\
  forall k v, In (k, v) l <-> In (k, v) new \/ (~ In k dropped /\ ~ In k (map fst new) /\ In (Some k, v) given).
(** The text of the argument for parameter [k], or the default [a]. *)
Definition given_or (t : table) (k a v : string) : Prop := In (Some k, v) t \/ (v = a /\ forall w, ~ In (Some k, w) t).
