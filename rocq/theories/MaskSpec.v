(** Specification of min-mode masking, independent of [Marker]. *)
From Verif Require Import PyStr.

Definition word_or_dot (c : ascii) : Prop := is_word c = true \/ c = "."%char.

Definition blanks (s : string) : Prop := forall a c b, s = a ++ String c b -> is_space c = true.

(** A name component: one or more word characters. *)
Definition component (s : string) : Prop :=
  s <> "" /\ forall a c b, s = a ++ String c b -> is_word c = true.

(** [spelled comps m]: [m] is the dotted name, possibly with blanks around dots. *)
Inductive spelled : list string -> string -> Prop :=
| sp_last c : spelled [c] c
| sp_more c cs w1 w2 m : blanks w1 -> blanks w2 -> spelled cs m ->
    spelled (c :: cs) (c ++ w1 ++ "." ++ w2 ++ m).

(** Last character of [a], or [prev] if [a] is empty. *)
Fixpoint last_or (prev : option ascii) (a : string) : option ascii :=
  match a with
  | EmptyString => prev
  | String c r => last_or (Some c) r
  end.

(** [m] stands alone between [a] and [b]. *)
Definition standalone (comps : list string) (prev : option ascii) (a m b : string) : Prop :=
  spelled comps m /\
  (forall c, last_or prev a = Some c -> ~ word_or_dot c) /\
  (forall c b', b = String c b' -> ~ word_or_dot c).

(** Every visible character replaced by an underscore. *)
Fixpoint hidden (m : string) : string :=
  match m with
  | EmptyString => EmptyString
  | String c r => String (if is_space c then c else "_"%char) (hidden r)
  end.

(** [masked comps prev s t]: [t] is [s] with the standalone occurrences hidden,
    from left to right. *)
Inductive masked (comps : list string) : option ascii -> string -> string -> Prop :=
| ma_none prev s :
    (forall a m b, s = a ++ m ++ b -> ~ standalone comps prev a m b) -> masked comps prev s s
| ma_step prev a m b t :
    standalone comps prev a m b ->
    (forall a' m' b', a ++ m ++ b = a' ++ m' ++ b' -> standalone comps prev a' m' b' ->
       (String.length a <= String.length a')%nat) ->
    masked comps (last_or prev (a ++ m)) b t ->
    masked comps prev (a ++ m ++ b) (a ++ hidden m ++ t).

(** All the kept names, one after the other. *)
Inductive masked_all : list (list string) -> string -> string -> Prop :=
| mall_nil s : masked_all [] s s
| mall_cons n ns s t u : masked n None s t -> masked_all ns t u -> masked_all (n :: ns) s u.
