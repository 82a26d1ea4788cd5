(** Python [dict]: association list in insertion order, without duplicate keys.
    Definitions only. *)
From Coq Require Import List Bool.
Import ListNotations.

Section Dict.
  Context {K V : Type}.
  Variable eqb : K -> K -> bool.

  Definition dict := list (K * V).

  (** [d.get(k)] *)
  Fixpoint dget (k : K) (d : dict) : option V :=
    match d with
    | [] => None
    | (k', v) :: r => if eqb k k' then Some v else dget k r
    end.

  (** [k in d] *)
  Definition dmem (k : K) (d : dict) : bool :=
    match dget k d with Some _ => true | None => false end.

  (** [d[k] = v]: keeps the position of an existing key, else appends. *)
  Fixpoint dset (k : K) (v : V) (d : dict) : dict :=
    match d with
    | [] => [(k, v)]
    | (k', v') :: r => if eqb k k' then (k', v) :: r else (k', v') :: dset k v r
    end.

  (** [d.pop(k)] / [del d[k]] without its result. *)
  Fixpoint ddel (k : K) (d : dict) : dict :=
    match d with
    | [] => []
    | (k', v') :: r => if eqb k k' then r else (k', v') :: ddel k r
    end.

  Definition dkeys (d : dict) : list K := map fst d.
  Definition dvals (d : dict) : list V := map snd d.

  (** [d.update(e)] *)
  Definition dupdate (d e : dict) : dict :=
    fold_left (fun acc kv => dset (fst kv) (snd kv) acc) e d.
End Dict.
Arguments dict : clear implicits.
