(** Words for C146: sorting and histograms. *)
From Verif Require Import PyStr PyDict Args FlagSpec DatasetSpec OutSpec.

(** Two results side by side, as a tuple without brackets. *)
Definition both (a b : string) : string := a ++ ", " ++ b.
(** A call of a function of [p] with the arguments [l], in the type of [like]. *)
Definition typed (p f like : string) (l : list (string * string)) : string := call_of (p ++ "." ++ f) l ++ ".cast(" ++ like ++ ".dtype)".
(** The limits: both elements of the range given, or none. *)
Definition limits (t : table) (new : list (string * string)) : Prop :=
  (exists r, passes t "range" r /\ new = [("min", r ++ "[0]"); ("max", r ++ "[1]")]) \/ ((forall r, ~ passes t "range" r) /\ new = []).
