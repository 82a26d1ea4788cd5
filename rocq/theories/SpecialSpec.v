(** Vocabulary for C49 and C86-C94. *)
From Verif Require Import PyStr PyDict Args ArgsSpec.

(** ** C49: texts that a Python list prints unchanged *)
Definition printable (c : ascii) : bool := (32 <=? nat_of_ascii c)%nat && negb (nat_of_ascii c =? 127)%nat.
(** No apostrophe, no backslash, no control character. *)
Definition plain_text (s : string) : Prop :=
  forall c, mem_char c s = true -> c <> "'"%char /\ c <> "\"%char /\ printable c = true.
(** A Python list display of the given expressions. *)
Definition list_display (texts : list string) : string := "[" ++ String.concat ", " texts ++ "]".

(** ** C86: arguments of a model constructor *)
(** Weights other than [None] are chosen. *)
Definition chooses_weights (b : table) : bool :=
  existsb (fun kv => key_eqb (fst kv) (Some "weights") &&
                     negb (String.eqb (snd kv) "None") && negb (String.eqb (snd kv) "")) b.
(** The value of [pretrained] is set to True: where it stands, or at the end. *)
Definition with_pretrained (b : table) : table :=
  if existsb (fun kv => key_eqb (fst kv) (Some "pretrained")) b
  then map (fun kv => if key_eqb (fst kv) (Some "pretrained") then (fst kv, "True") else kv) b
  else (b ++ [(Some "pretrained", "True")])%list.
Definition without_names (l : list string) (b : table) : table :=
  filter (fun kv => negb (key_in (fst kv) l)) b.
(** The entry only drops names and has no defaults. *)
Definition only_drops (e : entry) : Prop :=
  (forall k t, In (k, t) (kwargs_change e) -> t = TNone) /\ paddle_default_kwargs e = [].
(** Names that the generic rule treats apart from ordinary arguments. *)
Definition ordinary (b : table) : Prop :=
  forall k, In k ["dtype"; "pin_memory"; "requires_grad"; "out"] -> ~ In (Some k) (map fst b).
(** Names that never reach the generated call. *)
Definition dropped_names (e : entry) : list string :=
  (map fst (kwargs_change e) ++ ["layout"; "device"; "memory_format"; "inplace"; "generator"; "non_blocking"; "async"])%list.

(** ** C92: torch.split with an integer size: pieces of that size and the rest. *)
Definition torch_split_sizes (n size : nat) : list nat :=
  (repeat size (n / size) ++ (if (n mod size =? 0)%nat then [] else [n mod size]))%list.
