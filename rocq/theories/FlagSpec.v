(** Words for C137: what a call of an API is replaced by, and calls that differ in one
    argument.  Nothing here speaks about how code is generated. *)
From Verif Require Import PyStr PyDict UtilsFile Args TablesData Generate GenerateRows.

(** The arguments of a call as a list of parameters and texts. *)
Definition reads_as (n : string) (args : list expr) (kwargs : list kwnode) (t : table) : Prop :=
  exists r, find (fun r => String.eqb (r_name r) n) api_mapping = Some r /\
            fst (parse_args_and_kwargs (r_entry r) false false args kwargs) = Bound t.
(** The answer for a call ([None]: no such row). *)
Definition answer (n : string) (recv : option string) (args : list expr) (kwargs : list kwnode) (i : ids)
  : option (outcome generated) :=
  match find (fun r => String.eqb (r_name r) n) api_mapping with
  | Some r => match generator r with Some g => Some (paddle_nodes r g recv args kwargs i) | None => None end
  | None => None
  end.
(** The arguments without the one for parameter [k], and with another text for it. *)
Definition leaving_out (k : string) (t : table) : table := filter (fun kv => negb (key_eqb (fst kv) (Some k))) t.
Definition giving (k v : string) (t : table) : table :=
  map (fun kv => if key_eqb (fst kv) (Some k) then (fst kv, v) else kv) t.
Definition passes (t : table) (k v : string) : Prop := In (Some k, v) t.
(** Is [w] part of [v]? *)
Definition mentions (v w : string) : Prop := exists a b, v = a ++ w ++ b.
