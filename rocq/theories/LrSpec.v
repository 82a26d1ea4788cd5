(** Words for C141: schedulers of learning rates. *)
From Verif Require Import PyStr PyDict Args FlagSpec DatasetSpec OutSpec.

(** The scheduler is made, attached to the optimizer, and is the value of the call. *)
Definition attached (optimizer call : string) : string :=
  lines ["tmp_lr = " ++ call; optimizer ++ ".set_lr_scheduler(tmp_lr)"; "tmp_lr"].
(** The arguments [l] are those of [m] under new names. *)
Definition called (renaming : list (string * string)) (k : string) : string :=
  match dget String.eqb k renaming with Some n => n | None => k end.
Definition renamed_as (renaming m l : list (string * string)) : Prop :=
  NoDup (map fst l) /\ forall k v, In (k, v) l <-> exists j, In (j, v) m /\ k = called renaming j.
(** [l'] is [l] with [k=a] unless [l] has a [k]. *)
Definition filled (k a : string) (l l' : list (string * string)) : Prop :=
  (In k (map fst l) /\ l' = l) \/ (~ In k (map fst l) /\ l' = (l ++ [(k, a)])%list).
(** No argument has one of these names. *)
Definition free_of (t : table) (names : list string) : Prop := forall k v, In k names -> ~ In (Some k, v) t.
