(** What a whole conversion owes the converted code (specification). *)
From Verif Require Import PyStr PyDict UtilsSpec TablesData Ast BasicPass Generate GenerateData GenerateRows GenerateSpec Shipped ShippedSpec.

(** [needs t qs code]: one of the answers uses the helper code [code]: the answer to a call
    whose class has helper code (C116), or a name that stands for a helper function. *)
Inductive needs (t : tools) (qs : list (question * world * answer * list node)) : string -> Prop :=
| call_needs q v ns l r g recv args kws c :
    In (q, v, ANodes ns, l) qs -> about_call t q r recv args kws ->
    generator r = Some g -> regular r recv (exprs_of t args) (keywords_of t kws) ->
    r_matcher r = Some c -> In c with_helper -> helper_needed r (exprs_of t args) (keywords_of t kws) ->
    helper_code t c <> "" -> needs t qs (helper_code t c)
| name_needs q v a l m st :
    In (q, v, a, l) qs -> q = AskName m st \/ (exists n, q = AskAttribute m n st) ->
    In (m_class m) ["FAApplyRotaryEmbFuncMatcher"; "PaddleFlagMatcher"] ->
    In (m_class m) with_helper -> helper_code t (m_class m) <> "" -> needs t qs (helper_code t (m_class m)).

(** No two helper texts have the same hash. *)
Definition no_collision (t : tools) (hash : string -> Z) : Prop :=
  forall texts, Forall2 trimmed (map (helper_code t) with_helper) texts -> injective_on hash texts.

(** The helper texts of a conversion: each once, all that are needed, and only texts of
    classes. *)
Definition helper_texts (t : tools) (qs : list (question * world * answer * list node)) (texts : list string) : Prop :=
  NoDup texts /\
  (forall code, needs t qs code -> exists x, trimmed code x /\ In x texts) /\
  (forall x, In x texts -> exists c, In c with_helper /\ trimmed (helper_code t c) x).
