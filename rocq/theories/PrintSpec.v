(** Words for C143: options for printing. *)
From Verif Require Import PyStr PyDict Args FlagSpec.

(** torch/_tensor_str.py, set_printoptions: the profiles.  A literal has three quotes. *)
Definition profile_of (p : string) : option (list (string * string)) :=
  if String.eqb p """""""default""""""" then Some [("precision", "4"); ("threshold", "1000"); ("edgeitems", "3"); ("linewidth", "80")]
  else if String.eqb p """""""short""""""" then Some [("precision", "2"); ("threshold", "1000"); ("edgeitems", "2"); ("linewidth", "80")]
  else if String.eqb p """""""full""""""" then Some [("precision", "4"); ("threshold", "1000000"); ("edgeitems", "3"); ("linewidth", "80")]
  else None.
(** [l] has the options given in [t], and those of [others] that are not given. *)
Definition options (t : table) (others l : list (string * string)) : Prop :=
  NoDup (map fst l) /\
  forall k v, In (k, v) l <-> (k <> "profile" /\ passes t k v) \/ ((forall w, ~ passes t k w) /\ In (k, v) others).
