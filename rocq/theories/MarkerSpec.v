(** Specification of marking, written independently of [Marker]'s functions:
    which lines of a text must carry the marker. *)
From Verif Require Import PyStr.

Section Spec.
  Variable lines : list string.       (* the lines of the text *)
  Variable scans : list string.       (* the lines as scanned (masked in min mode) *)
  Variable lit_free : string -> string. (* a line with closed string literals removed *)

  Definition line (i : nat) : string := nth i lines "".
  Definition scan (i : nat) : string := lit_free (nth i scans "").

  (** Line [i] is an annotation left by the converter. *)
  Definition is_annotation (i : nat) : Prop :=
    exists a b, line i = a ++ "Not Support auto convert" ++ b.

  (** Line [i] is the first proper line after an annotation. *)
  Definition is_target (i : nat) : Prop :=
    ~ is_annotation i /\ line i <> "@" /\
    exists j, (j < i)%nat /\ is_annotation j /\
      forall k, (j < k < i)%nat -> is_annotation k \/ line k = "@".

  Definition is_scanned (i : nat) : Prop := ~ is_annotation i /\ ~ is_target i.

  (** [OpenBefore i b]: [b] tells whether a triple-quoted region is open when
      line [i] starts. *)
  Inductive OpenBefore : nat -> bool -> Prop :=
  | ob_0 : OpenBefore 0 false
  | ob_skip i b : OpenBefore i b -> ~ is_scanned i -> OpenBefore (S i) b
  | ob_scan i b : OpenBefore i b -> is_scanned i ->
      OpenBefore (S i)
        (xorb b (Nat.odd (py_count (scan i) (String quote2 (String quote2 (String quote2 "")))))).

  (** [s] uses package [p]: "p." at the start or after a character which is
      neither a word character nor a dot. *)
  Definition uses (p s : string) : Prop :=
    (exists b, s = p ++ "." ++ b) \/
    (exists a c b, s = a ++ String c (p ++ "." ++ b) /\ is_word c = false /\ c <> "."%char).

  Definition is_import (s : string) : Prop :=
    (exists b, py_strip s = "import " ++ b) \/ (exists b, py_strip s = "from " ++ b).

  (** Line [i] must be marked. *)
  Definition must_mark (min : bool) (pkgs : list string) (i : nat) : Prop :=
    is_target i \/
    (is_scanned i /\ OpenBefore i false /\ OpenBefore (S i) false /\
     (min = true -> ~ is_import (scan i)) /\
     exists p, In p pkgs /\ uses p (scan i)).
End Spec.

(** Removal of closed string literals: [Erased q d s t] says that [t] is [s]
    with, from left to right, each [d m d] deleted where [m] is non-empty and
    free of the quote character [q]. *)
Fixpoint q_free (q : ascii) (s : string) : Prop :=
  match s with
  | EmptyString => True
  | String c r => c <> q /\ q_free q r
  end.
Inductive Erased (q : ascii) (d : string) : string -> string -> Prop :=
| er_none s :
    (forall a m b, m <> "" -> q_free q m -> s <> a ++ d ++ m ++ d ++ b) -> Erased q d s s
| er_step a m b t :
    m <> "" -> q_free q m ->
    (forall a' m' b', m' <> "" -> q_free q m' ->
       a ++ d ++ m ++ d ++ b = a' ++ d ++ m' ++ d ++ b' ->
       (String.length a <= String.length a')%nat) ->
    Erased q d b t ->
    Erased q d (a ++ d ++ m ++ d ++ b) (a ++ t).
