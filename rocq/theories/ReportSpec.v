(** What a log has to say (C123). *)
From Coq Require Import ZArith QArith Qabs Sorted Permutation.
From Verif Require Import PyStr.
Open Scope string_scope.

(** These lines stand in the log, one after the other. *)
Definition in_a_row (l log : list string) : Prop := exists before after, log = (before ++ l ++ after)%list.
(** A cell of a table: the text and blanks, at least [w] characters. *)
Definition cell (w : nat) (s text : string) : Prop :=
  exists blank, text = s ++ blank /\ Forall (eq " "%char) (list_ascii_of_string blank) /\
  String.length text = Nat.max w (String.length s).
(** The same entries, the most frequent first, and those of the same count in the old order. *)
Definition by_frequency {A} (count : A -> nat) (old new : list A) : Prop :=
  Permutation old new /\ StronglySorted (fun x y => (count y <= count x)%nat) new /\
  forall n, filter (fun x => Nat.eqb (count x) n) new = filter (fun x => Nat.eqb (count x) n) old.

(** What IEEE 754 says about the rounding of a result to a double: order is kept, integers up
    to 2^53 are exact, and the relative error is at most 2^-53 (for results that are neither
    too large nor too small). *)
Record ieee (round : Q -> Q) : Prop := MkIeee {
  keeps_order : forall x y, (x <= y)%Q -> (round x <= round y)%Q;
  keeps_integers : forall n, (0 <= n <= 2 ^ 53)%Z -> (round (inject_Z n) == inject_Z n)%Q;
  close : forall x, ((1 # 2) ^ 1000 <= x)%Q -> (x <= 2 ^ 1000)%Q -> (Qabs (round x - x) <= x * (1 # 2 ^ 53))%Q
}.
